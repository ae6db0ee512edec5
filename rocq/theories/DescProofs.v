(** The Gibbs energy along a line of amounts, and the position of each amount in the solution vector. *)
From Coq Require Import Reals List Lia Lra Bool Arith FunctionalExtensionality.
From Coquelicot Require Import Coquelicot.
From Verif Require Import MassModel MassSpec MassProofs RealTac StepModel StepProofs StepSums StepProps HessModel HessFill HessGen HessSpec HessPhase HessBlock HessProofs HessProps DescSpec.
Import List ListNotations.
Open Scope R_scope.

(** ** Along a line *)
Section Line.
Variable X : Mixing.
Variable n : nat.
Variable D : (nat -> R) -> Prop.
Variables t p : R.
Hypothesis Dir : directional X n D t p.
Lemma sum_lin k (a b : nat -> R) : is_derive (fun y => sum k (fun i => a i + y * b i)) 0 (sum k b).
Proof.
  apply (is_derive_sum k (fun i y => a i + y * b i)). intros i _. auto_derive; [exact I|]. match goal with |- ?a = ?b => change (@eq R a b) end. ring.
Qed.
Lemma mix_line (q : nat -> R) m z : D m -> (forall k, (k < n)%nat -> m k = 0 -> z k = 0) ->
  is_derive (fun y => mixTotal n (xR X) (xG X t p) q (fun k => m k + y * z k)) 0
    (sum n (fun j => (extGrad (xNr X) (xG X t p (xR X m)) (xGx X t p (xR X m)) (sum n m) (xDr X m) j + q j) * z j)).
Proof.
  intros Dm Z. unfold mixTotal. pose proof (Dir m z Dm Z) as K. pose proof (sum_lin n m z) as L.
  assert (Q : is_derive (fun y => sum n (fun i => (m i + y * z i) * q i)) 0 (sum n (fun i => z i * q i))).
  { apply (is_derive_ext (fun y => sum n (fun i => m i * q i + y * (z i * q i)))); [intros y; apply sum_ext; intros; ring|]. apply sum_lin. }
  pose proof (is_derive_mult (fun y => sum n (fun i => m i + y * z i)) (fun y => xG X t p (xR X (fun k => m k + y * z k))) 0 _ _ L K Rmult_comm) as P.
  pose proof (is_derive_plus _ _ 0 _ _ P Q) as S. eapply is_derive_eq; [exact S|]. clear S P.
  assert (E0 : (fun k => m k + 0 * z k) = m) by (extensionality k; ring).
  change (sum n z * xG X t p (xR X (fun k => m k + 0 * z k)) + sum n (fun i => m i + 0 * z i) * sum (xNr X) (fun i => xGx X t p (xR X m) i * sum n (fun k => xDr X m i k * z k))
     + sum n (fun i => z i * q i) = sum n (fun j => (extGrad (xNr X) (xG X t p (xR X m)) (xGx X t p (xR X m)) (sum n m) (xDr X m) j + q j) * z j)).
  rewrite E0. unfold extGrad.
  rewrite (sum_ext n (fun j => (_ + q j) * z j) (fun j => (sum n m * sum (xNr X) (fun i => xGx X t p (xR X m) i * xDr X m i j) * z j + xG X t p (xR X m) * z j) + z j * q j)) by (intros; ring).
  rewrite !sum_plus, sum_scal.
  assert (S2 : sum n (fun j => sum n m * sum (xNr X) (fun i => xGx X t p (xR X m) i * xDr X m i j) * z j) = sum n m * sum (xNr X) (fun i => xGx X t p (xR X m) i * sum n (fun k => xDr X m i k * z k))).
  { rewrite (sum_ext n _ (fun j => sum n m * sum (xNr X) (fun i => xGx X t p (xR X m) i * xDr X m i j * z j))) by (intros j _; rewrite sum_scal_r; ring).
    rewrite sum_scal. f_equal. rewrite sum_swap. apply sum_ext. intros i _. rewrite <- sum_scal. apply sum_ext. intros; ring. }
  rewrite S2. ring.
Qed.
End Line.

(** ** The whole system along a line *)
Section System.
Variable tab : Tab.
Variables t p : R.
Variable liqX : Mixing.
Variable liqStd : nat -> Std.
Variable solX : nat -> Mixing.
Variable solStd : nat -> Std.
Variable DL : (nat -> R) -> Prop.
Variable DS : nat -> (nat -> R) -> Prop.
Hypothesis Lay : layout tab.
Hypothesis DirL : directional liqX (nlc tab) DL t p.
Hypothesis DirS : forall i, (i < npc tab)%nat -> isPhase tab i = true -> na tab i <> 1%nat -> directional (solX i) (na tab i) (DS i) t p.
Variable s : St.
Hypothesis Cnt : counts tab s.
Hypothesis InL : hasLiquid s = true -> forall nl, (nl < nLiq s)%nat -> DL (liqC s nl).
Hypothesis InS : forall i n, (n < nSol s i)%nat -> na tab i <> 1%nat -> DS i (fun j => solC s (i + 1 + j)%nat n) /\ solC s i n = sum (na tab i) (fun j => solC s (i + 1 + j)%nat n).
Notation vs := (conVars tab (hasLiquid s) s).
Notation G := (gibbs tab liqX liqStd solX solStd (hasLiquid s) t p).
Notation Bk := (Bk tab Plain t p liqX liqStd solX solStd s).
Notation act := (act tab Plain t p liqX liqStd solX solStd s).
Variable z : Var -> R.
Hypothesis Z : forall v, ~ In v vs -> z v = 0.

Lemma along_val y v : valVar (along z y s) v = valVar s v + y * z v.
Proof. destruct v; reflexivity. Qed.
Lemma along_ids y : ids tab (along z y s) = ids tab s.
Proof. reflexivity. Qed.
(** an absent component is in no column *)
Lemma absent_z d j : In d (ids tab s) -> (j < num tab d)%nat -> (forall i, d <> IP i) -> amt s d j = 0 -> z (var d j) = 0.
Proof.
  intros I Hj Nd E. apply Z. rewrite <- (columns tab Plain t p liqX liqStd solX solStd Lay s Cnt). intros H. apply in_map_iff in H. destruct H as ([d' k] & V & H).
  unfold places in H. apply in_flat_map in H. destruct H as (d2 & I2 & H). apply in_map_iff in H. destruct H as (k2 & E2 & H). injection E2 as -> ->.
  unfold pvar in V. cbn [fst snd] in V. pose proof (act_range tab Plain t p liqX liqStd solX solStd s d' k H) as R.
  destruct (var_inj tab Lay s Cnt d' k d j I2 I R Hj V) as [-> ->].
  rewrite act_filter in H by auto. apply filter_In in H. destruct H as [_ H]. rewrite amt_val in E. unfold present in H. destruct (var d j); cbn [valVar] in E; rewrite E in H;
    destruct (Req_EM_T 0 0); [discriminate|lra|discriminate|lra].
Qed.
Lemma line_sum : is_derive (fun y => G (along z y s)) 0 (sumL Id (fun d => sum (num tab d) (fun j => bDp (Bk d) j * z (var d j))) (ids tab s)).
Proof.
  apply (is_derive_ext (fun y => sumL Id (fun d => tot tab liqX liqStd solX solStd d (along z y s) xG stG t p) (ids tab s))).
  { intros y. unfold gibbs. rewrite <- (along_ids y). symmetry. apply (property_sum tab liqX liqStd solX solStd xG stG (along z y s) t p). exact Cnt. }
  apply sumL_der. intros d I. pose proof (absent_z d) as A. pose proof (in_ids tab s d I) as J. destruct d as [nl|i|i n].
  - destruct J as [J1 J2]. cbn [tot num]. refine (is_derive_eq _ _ _ _ (mix_line liqX (nlc tab) DL t p DirL (fun j => stG (liqStd j) t p) (liqC s nl) (fun k => z (VLiq nl k)) (InL J1 nl J2) _) _).
    + intros k Hk E. apply (A k I Hk); [discriminate|exact E].
    + apply sum_ext. intros j Hj. reflexivity.
  - cbn [tot num sum]. apply (is_derive_ext (fun y => (solC s i 0%nat + y * z (VSol i 0)) * stG (solStd i) t p)); [reflexivity|]. auto_derive; [exact Logic.I|].
    match goal with |- ?a = ?b => change (@eq R a b) end. cbn [HessProofs.Bk pureBlock bDp var]. ring.
  - destruct J as (J1 & J2 & J3). destruct (InS i n J2 J3) as [K1 K2]. cbn [tot num].
    refine (is_derive_eq _ _ _ _ (mix_line (solX i) (na tab i) (DS i) t p (DirS i J1 (proj1 (counted_phase tab s Cnt i ltac:(lia))) J3) (fun j => stG (solStd (i + 1 + j)%nat) t p) (fun j => solC s (i + 1 + j)%nat n) (fun k => z (VSol (i + 1 + k) n)) K1 _) _).
    + intros k Hk E. apply (A k I Hk); [discriminate|exact E].
    + apply sum_ext. intros j Hj. cbn [HessProofs.Bk solBlock mixBlock bDp]. rewrite K2. reflexivity.
Qed.
(** the gradient in each column, as the program has it *)
Variable conCols : nat.
Hypothesis Ht : 0 < t.
Hypothesis OKL : solutionOK liqX (nlc tab) DL.
Hypothesis OKS : forall i, (i < npc tab)%nat -> isPhase tab i = true -> na tab i <> 1%nat -> solutionOK (solX i) (na tab i) (DS i).
Hypothesis StdL : forall j, (j < nlc tab)%nat -> stdOK (liqStd j).
Hypothesis StdS : forall i, (i < npc tab)%nat -> stdOK (solStd i).
Notation M := (gradHess tab Plain t p liqX liqStd solX solStd (hasLiquid s) conCols s).
Definition grad (r : nat) : R := sum (length vs) (fun c => mE M r c * amounts vs s c) - mB M r.
Definition atCol (z : Var -> R) (r : nat) : R := match nth_error vs r with Some v => z v | None => 0 end.
Lemma grad_place r d j : nth_error (places Id act (ids tab s)) r = Some (d, j) -> grad r = bDp (Bk d) j.
Proof.
  intros N. assert (E : nth_error vs r = Some (var d j)).
  { rewrite <- (columns tab Plain t p liqX liqStd solX solStd Lay s Cnt), nth_map, N. reflexivity. }
  pose proof (C90_gradient tab t p liqX liqStd solX solStd conCols DL DS Lay Ht OKL OKS StdL StdS s Cnt InL InS r _ E) as K1.
  destruct (any_gradient tab t p liqX liqStd solX solStd (S (length vs)) DL DS Lay Ht OKL OKS StdL StdS s Cnt InL InS (Nat.lt_succ_diag_r _) Plain r _ E) as (d' & j' & N' & K2 & _).
  rewrite N in N'. injection N' as <- <-. apply is_derive_unique in K1, K2. unfold grad. rewrite <- K1. rewrite <- K2. reflexivity.
Qed.
Lemma line_slope : is_derive (fun y => G (along z y s)) 0 (sum (length vs) (fun r => grad r * atCol z r)).
Proof.
  eapply is_derive_eq; [exact line_sum|]. symmetry.
  rewrite (sum_ext (length vs) _ (fun r => match nth_error (places Id act (ids tab s)) r with Some b => bDp (Bk (fst b)) (snd b) * z (pvar b) | None => 0 end)).
  - rewrite <- (columns tab Plain t p liqX liqStd solX solStd Lay s Cnt), map_length, (fold_nth (fun b => bDp (Bk (fst b)) (snd b) * z (pvar b))).
    assert (G : forall l, fold_right (fun b x => bDp (Bk (fst b)) (snd b) * z (pvar b) + x) 0 (places Id act l)
                = sumL Id (fun d' => fold_right (fun k x => bDp (Bk d') k * z (var d' k) + x) 0 (act d')) l).
    { induction l as [|a l IH]; [reflexivity|]. rewrite sumL_cons, <- IH. unfold places. cbn [flat_map]. generalize (flat_map (fun d0 => map (pair d0) (act d0)) l). intros l'.
      generalize (act a). intros la. induction la as [|k la IHa]; cbn [map app fold_right fst snd]; [ring|]. rewrite IHa. unfold pvar. cbn [fst snd]. ring. }
    rewrite G. apply sumL_ext. intros d I. destruct d as [nl|i|i n].
    + rewrite act_filter, fold_filter by discriminate. apply sum_ext. intros k Hk. destruct (present s (var (IL nl) k)) eqn:P; auto.
      rewrite (absent_z (IL nl) k I Hk); [ring|discriminate|]. cbn [present var] in P. cbn [amt]. destruct (Req_EM_T (liqC s nl k) 0); [auto|discriminate].
    + cbn [HessProofs.act fold_right num sum]. ring.
    + rewrite act_filter, fold_filter by discriminate. apply sum_ext. intros k Hk. destruct (present s (var (IS i n) k)) eqn:P; auto.
      rewrite (absent_z (IS i n) k I Hk); [ring|discriminate|]. cbn [present var] in P. cbn [amt]. destruct (Req_EM_T (solC s (i + 1 + k)%nat n) 0); [auto|discriminate].
  - intros r Hr. unfold atCol. rewrite <- (columns tab Plain t p liqX liqStd solX solStd Lay s Cnt) at 1. rewrite nth_map.
    destruct (nth_error (places Id act (ids tab s)) r) as [[d j]|] eqn:N; cbn [option_map].
    + rewrite (grad_place r d j N). reflexivity.
    + ring.
Qed.
End System.

(** ** Where each amount is in the solution vector *)
Section Read.
Variable tab : Tab.
Variable imposed : bool.
Hypothesis Lay : layout tab.
Variable s : St.
Hypothesis Cnt : counts tab s.
Variable b : nat -> R.
Variables d0 e0 : nat -> nat -> R.
Notation vs := (conVars tab (hasLiquid s) s).
Notation d := (readBack tab imposed b s d0 e0).
Definition dval (D : Delta) (v : Var) : R := match v with VLiq nl j => dLiq D nl j | VSol m ns => dSol D m ns end.

Lemma nth_flat {A} (F : nat -> list A) n r v : nth_error (flat_map F (seq 0 n)) r = Some v ->
  exists i k, (i < n)%nat /\ r = (length (flat_map F (seq 0 i)) + k)%nat /\ nth_error (F i) k = Some v.
Proof.
  induction n; intros H; [destruct r; discriminate|]. rewrite seq_snoc, flat_map_snoc in H.
  destruct (Nat.lt_ge_cases r (length (flat_map F (seq 0 n)))) as [L|L].
  - rewrite nth_error_app1 in H by auto. destruct (IHn H) as (i & k & Hi & E & N). exists i, k. split; [lia|auto].
  - rewrite nth_error_app2 in H by auto. exists n, (r - length (flat_map F (seq 0 n)))%nat. split; [lia|]. split; [lia|auto].
Qed.
Lemma nth_only v k w : nth_error (onlyPresent s v) k = Some w -> k = O /\ w = v /\ present s v = true.
Proof. unfold onlyPresent. destruct (present s v); destruct k as [|k]; cbn; intros H; try discriminate; [injection H as <-; auto|destruct k; discriminate]. Qed.
Theorem delta_col r v : nth_error vs r = Some v -> dval d v = change imposed b s (valVar s v) r.
Proof.
  rewrite (conVars_vars tab Lay s Cnt). pose proof (readBack_ok tab imposed Lay s Cnt b d0 e0) as K. cbv zeta in K. destruct K as (_ & KL & KS).
  intros N. unfold vars in N. destruct (Nat.lt_ge_cases r (length (liqVars tab s))) as [L|L].
  - rewrite nth_error_app1 in N by auto. unfold liqVars in N. destruct (hasLiquid s) eqn:HL; [|destruct r; discriminate].
    apply nth_flat in N. destruct N as (nl & k & H1 & E1 & N). unfold cellsL in N. apply nth_flat in N. destruct N as (j & k' & H2 & E2 & N). apply nth_only in N. destruct N as (-> & -> & P).
    cbn [dval valVar]. rewrite (KL eq_refl nl j H1 H2). unfold valL. rewrite P. f_equal. unfold posL. subst k r. lia.
  - rewrite nth_error_app2 in N by auto. unfold solVars in N. apply nth_flat in N. destruct N as (i & k & H1 & E1 & N). unfold phaseVars in N. apply nth_flat in N. destruct N as (ns & k' & H2 & E2 & N).
    specialize (KS i ns H1 H2). unfold readOk in KS. unfold cellsS in N. destruct (Nat.eqb_spec (na tab i) 1) as [E|E].
    + destruct k' as [|k']; cbn in N; [injection N as <-|destruct k'; discriminate]. cbn [dval valVar]. rewrite KS. f_equal. unfold posS. cbn [seq flat_map length]. lia.
    + apply nth_flat in N. destruct N as (j & k2 & H3 & E3 & N). apply nth_only in N. destruct N as (-> & -> & P). destruct KS as [KC _]. cbn [dval valVar]. rewrite (KC j H3). unfold valC. rewrite P. f_equal. unfold posS. lia.
Qed.
Lemma delta_absent dd j : In dd (ids tab s) -> (j < num tab dd)%nat -> ~ In (var dd j) vs -> dval d (var dd j) = 0.
Proof.
  intros I Hj NI. pose proof (readBack_ok tab imposed Lay s Cnt b d0 e0) as K. cbv zeta in K. destruct K as (_ & KL & KS). rewrite (conVars_vars tab Lay s Cnt) in NI.
  apply (in_ids tab s) in I. destruct dd as [nl|i|i n]; cbn [num var dval] in *.
  - destruct I as [I1 I2]. rewrite (KL I1 nl j I2 Hj). unfold valL. destruct (present s (VLiq nl j)) eqn:P; auto. exfalso. apply NI. unfold vars. apply in_or_app. left. unfold liqVars. rewrite I1.
    apply in_flat_map. exists nl. split; [apply in_seq; lia|]. unfold cellsL. apply in_flat_map. exists j. split; [apply in_seq; lia|]. unfold onlyPresent. rewrite P. now left.
  - destruct I as (I1 & I2 & I3). exfalso. apply NI. unfold vars. apply in_or_app. right. unfold solVars. apply in_flat_map. exists i. split; [apply in_seq; lia|]. unfold phaseVars. apply in_flat_map. exists O. split; [apply in_seq; lia|].
    unfold cellsS. apply Nat.eqb_eq in I3. rewrite I3. now left.
  - destruct I as (I1 & I2 & I3). specialize (KS i n I1 I2). unfold readOk in KS. apply Nat.eqb_neq in I3. rewrite I3 in KS. destruct KS as [KC _]. rewrite (KC j Hj). unfold valC.
    destruct (present s (VSol (i + 1 + j) n)) eqn:P; auto. exfalso. apply NI. unfold vars. apply in_or_app. right. unfold solVars. apply in_flat_map. exists i. split; [apply in_seq; lia|]. unfold phaseVars. apply in_flat_map. exists n. split; [apply in_seq; lia|].
    unfold cellsS. rewrite I3. apply in_flat_map. exists j. split; [apply in_seq; lia|]. unfold onlyPresent. rewrite P. now left.
Qed.
End Read.
