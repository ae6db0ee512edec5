From Coq Require Import Reals List Lia Lra Bool Arith.
From Verif Require Import MassModel MassSpec.
Open Scope R_scope.

(** ** Sums *)
Lemma sum_ext n f g : (forall i, (i < n)%nat -> f i = g i) -> sum n f = sum n g.
Proof. induction n; simpl; intros H; [easy|]. rewrite IHn, H; auto. Qed.
Lemma sum_plus n f g : sum n (fun i => f i + g i) = sum n f + sum n g.
Proof. induction n; simpl; [lra|]. rewrite IHn; lra. Qed.
Lemma sum_opp n f : sum n (fun i => - f i) = - sum n f.
Proof. induction n; simpl; [lra|]. rewrite IHn; lra. Qed.
Lemma sum_scal n c f : sum n (fun i => c * f i) = c * sum n f.
Proof. induction n; simpl; [lra|]. rewrite IHn; lra. Qed.
Lemma sum_scal_r n c f : sum n (fun i => f i * c) = sum n f * c.
Proof. induction n; simpl; [lra|]. rewrite IHn; lra. Qed.
Lemma sum_zero n : sum n (fun _ => 0) = 0.
Proof. induction n; simpl; lra. Qed.
Lemma sum_0 n f : (forall i, (i < n)%nat -> f i = 0) -> sum n f = 0.
Proof. intros H. rewrite (sum_ext n f (fun _ => 0)); auto using sum_zero. Qed.
Lemma sum_swap n m f : sum n (fun i => sum m (fun j => f i j)) = sum m (fun j => sum n (fun i => f i j)).
Proof.
  induction n; simpl; [now rewrite sum_zero|]. rewrite IHn, <- sum_plus. reflexivity.
Qed.
Lemma sum_one n k d : sum n (fun i => if Nat.eqb i k then d else 0) = if Nat.ltb k n then d else 0.
Proof.
  induction n; simpl; [easy|]. rewrite IHn.
  destruct (Nat.eqb_spec n k); destruct (Nat.ltb_spec k n); destruct (Nat.ltb_spec k (S n)); try lia; lra.
Qed.
Lemma sum_one_f n k f : sum n (fun i => if Nat.eqb i k then f i else 0) = if Nat.ltb k n then f k else 0.
Proof.
  rewrite <- (sum_one n k (f k)). apply sum_ext; intros i _. destruct (Nat.eqb_spec i k); subst; auto.
Qed.
Lemma sum_at n k f g : (forall i, (i < n)%nat -> i <> k -> f i = g i) -> (k < n)%nat ->
  sum n f = sum n g + (f k - g k).
Proof.
  intros H Hk.
  assert (E : sum n (fun i => f i) = sum n (fun i => g i + (if Nat.eqb i k then f k - g k else 0))).
  { apply sum_ext. intros i Hi. destruct (Nat.eqb_spec i k); subst; [lra|]. rewrite H; auto; lra. }
  rewrite sum_plus, sum_one in E. destruct (Nat.ltb_spec k n); [|lia]. exact E.
Qed.

(** ** Loops *)
Lemma loop_inv {S} (P : nat -> S -> Prop) n f s :
  P O s -> (forall i s, (i < n)%nat -> P i s -> P (Datatypes.S i) (f i s)) -> P n (loop n f s).
Proof.
  intros H0 Hs. induction n; simpl; auto. apply Hs; auto.
Qed.

Section Acc.
Variable tab : Tab.
Variable q : Quantity.
Hypothesis Lay : layout tab.

Notation amount := (amount tab q).
Notation inSolids := (inSolids tab q).
Notation inLiquids := (inLiquids tab q).

(** component rows of different phases are different *)
Lemma rows_disjoint i i' c :
  (i < npc tab)%nat -> (i' < npc tab)%nat -> isPhase tab i = true -> isPhase tab i' = true ->
  componentRow tab i c -> componentRow tab i' c -> i = i'.
Proof.
  intros Hi Hi' Pi Pi' R R'.
  destruct (Lay i Hi Pi) as [N B]. destruct (Lay i' Hi' Pi') as [N' B'].
  destruct (Nat.lt_trichotomy i i') as [L|[E|L]]; auto; exfalso.
  - destruct R as [[A ->]|[A C]].
    + destruct R' as [[A' ->]|[A' C']]; lia.
    + assert (i' <= c)%nat by (destruct R' as [[? ->]|[? ?]]; lia).
      destruct (B A) as [_ F]. specialize (F (i' - i)%nat ltac:(lia)).
      replace (i + (i' - i))%nat with i' in F by lia. congruence.
  - destruct R' as [[A ->]|[A C]].
    + destruct R as [[A' ->]|[A' C']]; lia.
    + assert (i <= c)%nat by (destruct R as [[? ->]|[? ?]]; lia).
      destruct (B' A) as [_ F]. specialize (F (i - i')%nat ltac:(lia)).
      replace (i' + (i - i'))%nat with i in F by lia. congruence.
Qed.

(** the row of a solution phase is no component row *)
Lemma phaseRow_no_component i i' :
  (i < npc tab)%nat -> (i' < npc tab)%nat -> isPhase tab i = true -> isPhase tab i' = true ->
  (1 < na tab i)%nat -> ~ componentRow tab i' i.
Proof.
  intros Hi Hi' Pi Pi' N [[A E]|[A C]].
  - subst. lia.
  - destruct (Lay i' Hi' Pi') as [_ B]. destruct (B A) as [_ F].
    specialize (F (i - i')%nat ltac:(lia)). replace (i' + (i - i'))%nat with i in F by lia. congruence.
Qed.

Lemma row_lt i c : (i < npc tab)%nat -> isPhase tab i = true -> componentRow tab i c -> (c < npc tab)%nat.
Proof.
  intros Hi Pi [[A ->]|[A C]]; auto. destruct (Lay i Hi Pi) as [_ B]. destruct (B A); lia.
Qed.

Lemma row_in i j : (i < npc tab)%nat -> isPhase tab i = true -> (1 < na tab i)%nat -> (j < na tab i)%nat ->
  componentRow tab i (i+1+j).
Proof. right; split; auto; lia. Qed.

Lemma na_cases i : (i < npc tab)%nat -> isPhase tab i = true -> na tab i = 1%nat \/ (1 < na tab i)%nat.
Proof. intros Hi Pi. destruct (Lay i Hi Pi). lia. Qed.

(** amounts only read the columns that are counted, in component rows *)
Lemma solidAmount_ext s s' i ns : (i < npc tab)%nat -> isPhase tab i = true ->
  (forall c, componentRow tab i c -> solC s' c ns = solC s c ns) ->
  solidAmount tab q s' i ns = solidAmount tab q s i ns.
Proof.
  intros Hi Pi H. unfold solidAmount. destruct (na_cases i Hi Pi) as [E|N].
  - rewrite E. simpl. rewrite H; auto. left; auto.
  - destruct (Nat.eqb_spec (na tab i) 1); [lia|].
    apply sum_ext. intros j Hj. rewrite H; auto. now apply row_in.
Qed.

Lemma inSolids_ext s s' : nSol s' = nSol s ->
  (forall i c ns, (i < npc tab)%nat -> isPhase tab i = true -> componentRow tab i c -> (ns < nSol s i)%nat ->
     solC s' c ns = solC s c ns) -> inSolids s' = inSolids s.
Proof.
  intros N H. unfold MassSpec.inSolids. apply sum_ext. intros i Hi.
  destruct (isPhase tab i) eqn:Pi; auto. rewrite N. apply sum_ext. intros ns Hns.
  apply solidAmount_ext; eauto.
Qed.

Definition phaseSum (s : St) (i : nat) : R := sum (nSol s i) (solidAmount tab q s i).

(** a change confined to one phase *)
Lemma inSolids_local s s' i : (i < npc tab)%nat -> isPhase tab i = true ->
  (forall i', i' <> i -> nSol s' i' = nSol s i') ->
  (forall i' c ns, (i' < npc tab)%nat -> isPhase tab i' = true -> i' <> i -> componentRow tab i' c ->
     (ns < nSol s i')%nat -> solC s' c ns = solC s c ns) ->
  inSolids s' = inSolids s + (phaseSum s' i - phaseSum s i).
Proof.
  intros Hi Pi N H. unfold MassSpec.inSolids.
  rewrite (sum_at (npc tab) i _ (fun i => if isPhase tab i then sum (nSol s i) (solidAmount tab q s i) else 0)).
  - rewrite Pi. reflexivity.
  - intros i' Hi' Ne. destruct (isPhase tab i') eqn:Pi'; auto. rewrite N; auto.
    apply sum_ext. intros ns Hns. apply solidAmount_ext; eauto.
  - auto.
Qed.

Lemma upd2_eq f i k v : upd2 f i k v i k = v.
Proof. unfold upd2. now rewrite !Nat.eqb_refl. Qed.
Lemma upd2_row f i k v c k' : c <> i -> upd2 f i k v c k' = f c k'.
Proof. intros H. unfold upd2. destruct (Nat.eqb_spec c i); [congruence|auto]. Qed.
Lemma upd2_col f i k v c k' : k' <> k -> upd2 f i k v c k' = f c k'.
Proof. intros H. unfold upd2. destruct (Nat.eqb_spec k' k); [congruence|]. now rewrite andb_false_r. Qed.

Lemma solidAmount_setSol s i c ns v ns' : (i < npc tab)%nat -> isPhase tab i = true -> componentRow tab i c ->
  solidAmount tab q (setSol c ns v s) i ns' =
  solidAmount tab q s i ns' + (if Nat.eqb ns' ns then perSol q c * (v - solC s c ns) else 0).
Proof.
  intros Hi Pi Rc. destruct (Nat.eqb_spec ns' ns) as [->|Ne].
  2:{ rewrite Rplus_0_r. apply solidAmount_ext; auto. intros. simpl. now apply upd2_col. }
  unfold solidAmount. destruct Rc as [[A ->]|[A C]].
  - rewrite A. simpl. rewrite upd2_eq. ring.
  - destruct (Nat.eqb_spec (na tab i) 1); [lia|].
    rewrite (sum_at (na tab i) (c - i - 1) _ (fun j => perSol q (i+1+j) * solC s (i+1+j)%nat ns)).
    + replace (i + 1 + (c - i - 1))%nat with c by lia. simpl. rewrite upd2_eq. ring.
    + intros j Hj Nj. simpl. rewrite upd2_row; auto. lia.
    + lia.
Qed.

(** writing one cell of a component row *)
Lemma inSolids_setSol s i c ns v : (i < npc tab)%nat -> isPhase tab i = true -> componentRow tab i c ->
  inSolids (setSol c ns v s) =
  inSolids s + (if Nat.ltb ns (nSol s i) then perSol q c * (v - solC s c ns) else 0).
Proof.
  intros Hi Pi Rc. rewrite (inSolids_local s _ i); auto.
  2:{ intros i' c' ns' Hi' Pi' Ne Rc' _. simpl. apply upd2_row. intros ->. apply Ne.
      symmetry. apply (rows_disjoint i i' c); auto. }
  f_equal. unfold phaseSum. simpl nSol.
  rewrite (sum_ext _ _ (fun ns' => solidAmount tab q s i ns' + (if Nat.eqb ns' ns then perSol q c * (v - solC s c ns) else 0)))
    by (intros; now apply solidAmount_setSol).
  rewrite sum_plus, sum_one. ring.
Qed.

(** writing the total of a solution *)
Lemma inSolids_setTotal s i ns v : (i < npc tab)%nat -> isPhase tab i = true -> (1 < na tab i)%nat ->
  inSolids (setSol i ns v s) = inSolids s.
Proof.
  intros Hi Pi N. apply inSolids_ext; auto. intros i' c ns' Hi' Pi' Rc _. simpl. apply upd2_row.
  intros ->. eapply (phaseRow_no_component i i'); eauto.
Qed.

Lemma inSolids_same s s' : nSol s' = nSol s -> solC s' = solC s -> inSolids s' = inSolids s.
Proof. intros A B. apply inSolids_ext; auto. intros. now rewrite B. Qed.
Lemma inLiquids_same s s' : nLiq s' = nLiq s -> liqC s' = liqC s -> inLiquids s' = inLiquids s.
Proof. intros A B. unfold MassSpec.inLiquids, inLiquid. now rewrite A, B. Qed.

(** liquids *)
Lemma inLiquids_addLiq s nl a : (nl < nLiq s)%nat ->
  inLiquids (addLiq tab nl a s) = inLiquids s + sum (nlc tab) (fun j => perLiq q j * a j).
Proof.
  intros H. unfold MassSpec.inLiquids. simpl nLiq.
  rewrite (sum_at (nLiq s) nl _ (inLiquid tab q s)); auto.
  - f_equal. unfold inLiquid. unfold Rminus. rewrite <- sum_opp, <- sum_plus. apply sum_ext. intros j Hj.
    simpl. rewrite Nat.eqb_refl. destruct (Nat.ltb_spec j (nlc tab)); [|lia]. simpl. ring.
  - intros nl' _ Ne. unfold inLiquid. apply sum_ext. intros j Hj. simpl.
    destruct (Nat.eqb_spec nl' nl); [congruence|]. reflexivity.
Qed.
Lemma inLiquids_putLiq s nl a : (nl < nLiq s)%nat ->
  inLiquids (putLiq tab nl a s) = inLiquids s + sum (nlc tab) (fun j => perLiq q j * (a j - liqC s nl j)).
Proof.
  intros H. unfold MassSpec.inLiquids. simpl nLiq.
  rewrite (sum_at (nLiq s) nl _ (inLiquid tab q s)); auto.
  - f_equal. unfold inLiquid. unfold Rminus. rewrite <- sum_opp, <- sum_plus. apply sum_ext. intros j Hj.
    simpl. rewrite Nat.eqb_refl. destruct (Nat.ltb_spec j (nlc tab)); [|lia]. simpl. ring.
  - intros nl' _ Ne. unfold inLiquid. apply sum_ext. intros j Hj. simpl.
    destruct (Nat.eqb_spec nl' nl); [congruence|]. reflexivity.
Qed.

Lemma agrees_scal c x : agrees tab q -> (c < npc tab)%nat ->
  sum (nlc tab) (fun j => perLiq q j * (solToLiq tab c j * x)) = perSol q c * x.
Proof.
  intros A Hc. rewrite (A c Hc), <- sum_scal_r. apply sum_ext; intros; ring.
Qed.

End Acc.
