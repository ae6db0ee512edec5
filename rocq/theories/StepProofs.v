(** Lemmas about the minimiser step: the columns of the constraint matrix are the variables in the order in which the
    solution is read back. *)
From Coq Require Import Reals List Lia Lra Bool Arith.
From Verif Require Import MassModel MassSpec MassProofs StepModel.
Import ListNotations.
Open Scope R_scope.

Lemma flat_map_snoc {A B} (f : A -> list B) l x : flat_map f (l ++ [x]) = flat_map f l ++ f x.
Proof. rewrite flat_map_app. cbn. now rewrite app_nil_r. Qed.
Lemma seq_snoc n : seq 0 (S n) = seq 0 n ++ [n].
Proof. now rewrite seq_S. Qed.

(** the scalar product of the coefficients of a list of variables with b, from position [off] on *)
Fixpoint dotFrom (c : Var -> R) (b : nat -> R) (off : nat) (l : list Var) : R :=
  match l with [] => 0 | v :: l' => c v * b off + dotFrom c b (S off) l' end.
Lemma dotFrom_app c b l1 : forall off l2, dotFrom c b off (l1 ++ l2) = dotFrom c b off l1 + dotFrom c b (off + length l1) l2.
Proof.
  induction l1 as [|v l1 IH]; intros off l2; cbn [app dotFrom length]; [rewrite Nat.add_0_r; ring|].
  rewrite IH. replace (S off + length l1)%nat with (off + S (length l1))%nat by lia. ring.
Qed.
Lemma dotFrom_flat c b F n : forall off, dotFrom c b off (flat_map F (seq 0 n)) =
  sum n (fun i => dotFrom c b (off + length (flat_map F (seq 0 i))) (F i)).
Proof.
  intros off. induction n; [reflexivity|]. rewrite seq_snoc, flat_map_snoc, dotFrom_app, IHn. reflexivity.
Qed.
Lemma sum_S_front n f : sum (S n) f = f O + sum n (fun i => f (S i)).
Proof. induction n; [cbn; ring|]. cbn [sum] in *. rewrite IHn. ring. Qed.
Lemma dotFrom_sum c b l : forall off m, (length l <= m)%nat ->
  dotFrom c b off l = sum m (fun i => match nth_error l i with Some v => c v | None => 0 end * b (off + i)%nat).
Proof.
  induction l as [|v l IH]; intros off m Hm; cbn [dotFrom].
  - symmetry. apply sum_0. intros i _. destruct i; cbn; ring.
  - cbn [length] in Hm. destruct m; [lia|]. rewrite sum_S_front. cbn [nth_error]. rewrite Nat.add_0_r. f_equal.
    rewrite (IH (S off) m) by lia. apply sum_ext. intros i Hi. now replace (S off + i)%nat with (off + S i)%nat by lia.
Qed.

Section S.
Variable tab : Tab.
Variable imposed : bool.
Variables iF2 iF3 : nat.
Hypothesis Lay : layout tab.

Section Fix.
Variable s : St.
Hypothesis Cnt : counts tab s.
Variable b : nat -> R.

(** ** The variables in the order of reading back *)
Definition cellsL (nl : nat) : list Var := flat_map (fun j => onlyPresent s (VLiq nl j)) (seq 0 (nlc tab)).
Definition liqVars : list Var := if hasLiquid s then flat_map cellsL (seq 0 (nLiq s)) else [].
Definition cellsS (i ns : nat) : list Var :=
  if Nat.eqb (na tab i) 1 then [VSol i ns] else flat_map (fun k => onlyPresent s (VSol (i + 1 + k) ns)) (seq 0 (na tab i)).
Definition phaseVars (i : nat) : list Var := flat_map (cellsS i) (seq 0 (nSol s i)).
Definition solVars : list Var := flat_map phaseVars (seq 0 (npc tab)).
Definition vars : list Var := liqVars ++ solVars.

Lemma counted_phase i : (0 < nSol s i)%nat -> isPhase tab i = true /\ (i < npc tab)%nat.
Proof.
  intros H. destruct Cnt as (C1 & _ & C3). split.
  - destruct (isPhase tab i) eqn:E; auto. rewrite (C1 i E) in H. lia.
  - destruct (Nat.lt_ge_cases i (npc tab)); auto. rewrite (C3 i) in H by auto. lia.
Qed.
Lemma phaseVars_nil n : forall j, (forall i, (j <= i < j + n)%nat -> nSol s i = O) -> flat_map phaseVars (seq j n) = [].
Proof.
  induction n; intros j H; [reflexivity|]. cbn [seq flat_map]. unfold phaseVars at 1. rewrite H by lia. cbn. apply IHn. intros. apply H. lia.
Qed.
Lemma conSolids_eq fuel : forall j, (npc tab <= j + fuel)%nat -> conSolids tab fuel j s = flat_map phaseVars (seq j (npc tab - j)).
Proof.
  induction fuel; intros j H.
  - replace (npc tab - j)%nat with O by lia. reflexivity.
  - cbn [conSolids]. destruct (Nat.ltb_spec j (npc tab)) as [L|L]; [|replace (npc tab - j)%nat with O by lia; reflexivity].
    replace (npc tab - j)%nat with (S (npc tab - (j + 1))) by lia. cbn [seq flat_map].
    destruct (Nat.ltb_spec 0 (nSol s j)) as [P|P].
    + destruct (counted_phase j P) as [Ph _]. destruct (Nat.eqb_spec (na tab j) 1) as [E1|E1].
      * rewrite IHfuel by lia. replace (j + 1)%nat with (S j) by lia. unfold phaseVars at 2.
        destruct Cnt as (_ & C2 & _). specialize (C2 j E1). replace (nSol s j) with 1%nat by lia.
        cbn [seq flat_map app]. unfold cellsS. rewrite E1. reflexivity.
      * destruct (Lay j L Ph) as [N B]. destruct (B ltac:(lia)) as [LB F].
        rewrite IHfuel by lia.
        replace (flat_map phaseVars (seq (S j) (npc tab - (j + 1)))) with (flat_map phaseVars (seq (j + na tab j + 1) (npc tab - (j + na tab j + 1)))).
        { f_equal. unfold phaseVars. apply flat_map_ext. intros ns. unfold cellsS. apply Nat.eqb_neq in E1. now rewrite E1. }
        replace (npc tab - (j + 1))%nat with (na tab j + (npc tab - (j + na tab j + 1)))%nat by lia.
        rewrite seq_app, flat_map_app, (phaseVars_nil (na tab j) (S j)).
        { cbn [app]. f_equal. f_equal. lia. }
        intros i Hi. destruct Cnt as (C1 & _). apply C1. specialize (F (i - j)%nat ltac:(lia)). now replace (j + (i - j))%nat with i in F by lia.
    + unfold phaseVars at 1. replace (nSol s j) with O by lia. cbn [seq flat_map app]. rewrite IHfuel by lia. f_equal. f_equal. lia.
Qed.
Theorem conVars_vars : conVars tab (hasLiquid s) s = vars.
Proof. unfold conVars, vars, solVars. rewrite conSolids_eq by lia. rewrite Nat.sub_0_r. reflexivity. Qed.

(** ** Positions *)
Definition posL (nl i : nat) : nat := (length (flat_map cellsL (seq 0 nl)) + length (flat_map (fun j => onlyPresent s (VLiq nl j)) (seq 0 i)))%nat.
Definition posS (i ns k : nat) : nat :=
  (length liqVars + length (flat_map phaseVars (seq 0 i)) + length (flat_map (cellsS i) (seq 0 ns))
   + length (flat_map (fun k => onlyPresent s (VSol (i + 1 + k) ns)) (seq 0 k)))%nat.
Lemma posL_S nl i : posL nl (S i) = (posL nl i + length (onlyPresent s (VLiq nl i)))%nat.
Proof. unfold posL. rewrite seq_snoc, flat_map_snoc, app_length. lia. Qed.
Lemma posL_end nl : posL nl (nlc tab) = posL (S nl) 0.
Proof. unfold posL. rewrite seq_snoc, flat_map_snoc, app_length. unfold cellsL at 3. cbn. lia. Qed.
Lemma posS_S i ns k : posS i ns (S k) = (posS i ns k + length (onlyPresent s (VSol (i + 1 + k) ns)))%nat.
Proof. unfold posS. rewrite (seq_snoc k), (flat_map_snoc _ (seq 0 k)), app_length. lia. Qed.
Lemma posS_end i ns : na tab i <> 1%nat -> posS i ns (na tab i) = posS i (S ns) 0.
Proof.
  intros N. unfold posS. rewrite (seq_snoc ns), (flat_map_snoc _ (seq 0 ns)), app_length. unfold cellsS at 3.
  apply Nat.eqb_neq in N. rewrite N. cbn [seq flat_map length]. lia.
Qed.
Lemma posS_pure i ns : na tab i = 1%nat -> posS i (S ns) 0 = S (posS i ns 0).
Proof.
  intros N. unfold posS. rewrite (seq_snoc ns), (flat_map_snoc _ (seq 0 ns)), app_length. unfold cellsS at 2. rewrite N. cbn. lia.
Qed.
Lemma posS_next i : posS i (nSol s i) 0 = posS (S i) 0 0.
Proof. unfold posS. rewrite (seq_snoc i), (flat_map_snoc _ (seq 0 i)), app_length. unfold phaseVars at 3. cbn. lia. Qed.

(** ** What reading back stores *)
Notation change := (change imposed b s).
Definition valL (nl i : nat) : R := if present s (VLiq nl i) then change (liqC s nl i) (posL nl i) else 0.
Definition valC (i ns k : nat) : R := if present s (VSol (i + 1 + k) ns) then change (solC s (i + 1 + k)%nat ns) (posS i ns k) else 0.

Lemma readLiq_loop nl d : dj d = posL nl 0 ->
  let d' := loop (nlc tab) (readLiq imposed b s nl) d in
  dj d' = posL (S nl) 0 /\ dSol d' = dSol d /\
  (forall j, (j < nlc tab)%nat -> dLiq d' nl j = valL nl j) /\ (forall nl' j, nl' <> nl -> dLiq d' nl' j = dLiq d nl' j).
Proof.
  intros H0. cbv zeta. rewrite <- posL_end.
  apply (loop_inv (fun i d' => dj d' = posL nl i /\ dSol d' = dSol d /\ (forall j, (j < i)%nat -> dLiq d' nl j = valL nl j) /\ (forall nl' j, nl' <> nl -> dLiq d' nl' j = dLiq d nl' j))).
  - repeat split; auto. intros j Hj. lia.
  - intros i d' Hi (A & B & C & D). unfold readLiq. rewrite posL_S. unfold valL at 1. unfold onlyPresent.
    assert (K : forall x, (forall j, (j < S i)%nat -> x = valL nl i -> upd2 (dLiq d') nl i x nl j = valL nl j) /\ (forall nl' j, nl' <> nl -> upd2 (dLiq d') nl i x nl' j = dLiq d nl' j)).
    { intros x. split; intros.
      - destruct (Nat.eq_dec j i) as [->|]; [rewrite upd2_eq; auto|]. rewrite upd2_col by auto. apply C. lia.
      - rewrite upd2_row by auto. now apply D. }
    destruct (present s (VLiq nl i)) eqn:E; cbn [dj dSol dLiq length]; repeat split; try lia; auto.
    + intros j Hj. apply K; auto. unfold valL. now rewrite E, A.
    + intros nl' j Hn. now apply K.
    + intros j Hj. apply K; auto. unfold valL. now rewrite E.
    + intros nl' j Hn. now apply K.
Qed.
Lemma readLiq_all d : dj d = O -> hasLiquid s = true ->
  let d' := loop (nLiq s) (fun nl => loop (nlc tab) (readLiq imposed b s nl)) d in
  dj d' = length liqVars /\ dSol d' = dSol d /\ (forall nl j, (nl < nLiq s)%nat -> (j < nlc tab)%nat -> dLiq d' nl j = valL nl j).
Proof.
  intros H0 HL. cbv zeta.
  replace (length liqVars) with (posL (nLiq s) 0) by (unfold posL, liqVars; rewrite HL; cbn; lia).
  apply (loop_inv (fun n d' => dj d' = posL n 0 /\ dSol d' = dSol d /\ (forall nl j, (nl < n)%nat -> (j < nlc tab)%nat -> dLiq d' nl j = valL nl j))).
  - repeat split; auto. intros. lia.
  - intros n d' Hn (A & B & C). pose proof (readLiq_loop n d' A) as K. cbv zeta in K. destruct K as (K1 & K2 & K3 & K4).
    repeat split; auto; try congruence. intros nl j Hnl Hj. destruct (Nat.eq_dec nl n) as [->|]; [now apply K3|]. rewrite K4 by auto. apply C; auto. lia.
Qed.

(** the new amount of component k, by which the total is computed *)
Definition newC (i ns k : nat) : R := solC s (i + 1 + k)%nat ns + valC i ns k.
Lemma readComp_loop i ns d : dj d = posS i ns 0 -> na tab i <> 1%nat ->
  let '(d', mT) := loop (na tab i) (readComp imposed b s i ns) (d, 0) in
  dj d' = posS i (S ns) 0 /\ dLiq d' = dLiq d /\ mT = sum (na tab i) (newC i ns) /\
  (forall k, (k < na tab i)%nat -> dSol d' (i + 1 + k)%nat ns = valC i ns k) /\
  (forall r ns', (ns' <> ns \/ (forall k, (k < na tab i)%nat -> r <> (i + 1 + k)%nat)) -> dSol d' r ns' = dSol d r ns').
Proof.
  intros H0 N. rewrite <- posS_end by auto.
  apply (loop_inv (fun q (dm : Delta * R) => let '(d', mT) := dm in dj d' = posS i ns q /\ dLiq d' = dLiq d /\ mT = sum q (newC i ns) /\
    (forall k, (k < q)%nat -> dSol d' (i + 1 + k)%nat ns = valC i ns k) /\
    (forall r ns', (ns' <> ns \/ (forall k, (k < na tab i)%nat -> r <> (i + 1 + k)%nat)) -> dSol d' r ns' = dSol d r ns'))).
  - repeat split; auto. intros. lia.
  - intros q (d', mT) Hq (A & B & C & D & E). unfold readComp. rewrite posS_S. unfold onlyPresent.
    assert (K : forall x, (forall k, (k < S q)%nat -> x = valC i ns q -> upd2 (dSol d') (i + 1 + q) ns x (i + 1 + k)%nat ns = valC i ns k) /\
       (forall r ns', (ns' <> ns \/ (forall k, (k < na tab i)%nat -> r <> (i + 1 + k)%nat)) -> upd2 (dSol d') (i + 1 + q) ns x r ns' = dSol d r ns')).
    { intros x. split.
      - intros k Hk Ex. destruct (Nat.eq_dec k q) as [->|]; [rewrite upd2_eq; auto|]. rewrite upd2_row by lia. apply D. lia.
      - intros r ns' [Hn|Hr]; [rewrite upd2_col by auto|rewrite upd2_row by (apply Hr; auto)]; apply E; auto. }
    destruct (present s (VSol (i + 1 + q) ns)) eqn:Ep; cbn [dj dSol dLiq length].
    + repeat split; try lia; auto; try (intros; apply K; auto).
      * cbn [sum]. rewrite <- C. unfold newC, valC. rewrite Ep, A. unfold StepModel.change. destruct (nonlin imposed s); ring.
      * unfold valC. now rewrite Ep, A.
    + repeat split; try lia; auto; try (intros; apply K; auto).
      * cbn [sum]. rewrite <- C. unfold newC, valC. rewrite Ep. cbn [present] in Ep. destruct (Req_EM_T (solC s (i + 1 + q)%nat ns) 0) as [Z|]; [|discriminate]. rewrite Z. ring.
      * unfold valC. now rewrite Ep.
Qed.

(** what holds of one instance of a phase afterwards *)
Definition readOk (D : nat -> nat -> R) (i ns : nat) : Prop :=
  if Nat.eqb (na tab i) 1 then D i ns = change (solC s i ns) (posS i ns 0)
  else (forall k, (k < na tab i)%nat -> D (i + 1 + k)%nat ns = valC i ns k) /\ D i ns = sum (na tab i) (newC i ns) - solC s i ns.
Definition ownRow (i r : nat) : Prop := r = i \/ (na tab i <> 1%nat /\ exists k, (k < na tab i)%nat /\ r = (i + 1 + k)%nat).
Lemma readSol_one i ns d : dj d = posS i ns 0 ->
  let d' := readSol tab imposed b s i ns d in
  dj d' = posS i (S ns) 0 /\ dLiq d' = dLiq d /\ readOk (dSol d') i ns /\
  (forall r ns', (ns' <> ns \/ ~ ownRow i r) -> dSol d' r ns' = dSol d r ns').
Proof.
  intros H0. cbv zeta. unfold readSol, readOk. destruct (Nat.eqb_spec (na tab i) 1) as [E|E].
  - cbn [dj dSol dLiq]. rewrite posS_pure by auto. repeat split; auto.
    + now rewrite upd2_eq, H0.
    + intros r ns' [Hn|Hr]; [rewrite !upd2_col by auto; auto|]. assert (r <> i) by (intros ->; apply Hr; now left). now rewrite !upd2_row.
  - pose proof (readComp_loop i ns (mkDelta (dLiq d) (upd2 (dSol d) i ns 0) (dj d)) H0 E) as K.
    destruct (loop (na tab i) (readComp imposed b s i ns) _) as [d' mT]. destruct K as (A & B & C & D & F).
    cbn [dj dSol dLiq] in *. repeat split; auto.
    + intros k Hk. rewrite upd2_row by lia. now apply D.
    + rewrite upd2_eq, C. reflexivity.
    + intros r ns' H. assert (Hni : ns' <> ns \/ r <> i) by (destruct H as [|H]; [now left|right; intros ->; apply H; now left]).
      assert (Hk : ns' <> ns \/ (forall k, (k < na tab i)%nat -> r <> (i + 1 + k)%nat)).
      { destruct H as [|H]; [now left|right]. intros k Hk ->. apply H. right. split; auto. now exists k. }
      destruct Hni as [Hn|Hn]; [rewrite upd2_col by auto|rewrite upd2_row by auto]; rewrite F by auto; [rewrite upd2_col by auto|rewrite upd2_row by auto]; reflexivity.
Qed.
Lemma readOk_ext D D' i ns : (forall r, ownRow i r -> D' r ns = D r ns) -> readOk D i ns -> readOk D' i ns.
Proof.
  intros H. unfold readOk. destruct (Nat.eqb_spec (na tab i) 1) as [E|E].
  - rewrite (H i) by now left. auto.
  - intros [A B]. split.
    + intros k Hk. rewrite H; [now apply A|]. right. split; auto. now exists k.
    + rewrite (H i) by now left. auto.
Qed.
Lemma readSol_phase i d : dj d = posS i 0 0 ->
  let d' := loop (nSol s i) (readSol tab imposed b s i) d in
  dj d' = posS (S i) 0 0 /\ dLiq d' = dLiq d /\ (forall ns, (ns < nSol s i)%nat -> readOk (dSol d') i ns) /\
  (forall r ns', ~ (ownRow i r /\ (0 < nSol s i)%nat) -> dSol d' r ns' = dSol d r ns').
Proof.
  intros H0. cbv zeta. rewrite <- posS_next.
  apply (loop_inv (fun n d' => dj d' = posS i n 0 /\ dLiq d' = dLiq d /\ (forall ns, (ns < n)%nat -> readOk (dSol d') i ns) /\
    (forall r ns', ~ (ownRow i r /\ (0 < nSol s i)%nat) -> dSol d' r ns' = dSol d r ns'))).
  - repeat split; auto. intros. lia.
  - intros n d' Hn (A & B & C & D). pose proof (readSol_one i n d' A) as K. cbv zeta in K. destruct K as (K1 & K2 & K3 & K4).
    repeat split; auto; try congruence.
    + intros ns Hns. destruct (Nat.eq_dec ns n) as [->|]; auto. apply (readOk_ext (dSol d')); [|apply C; lia].
      intros r _. apply K4. now left.
    + intros r ns' Hr. rewrite K4; [now apply D|]. right. intros Ho. apply Hr. split; auto. lia.
Qed.
(** rows of different phases *)
Lemma ownRow_disjoint i i' r : (0 < nSol s i)%nat -> (0 < nSol s i')%nat -> ownRow i r -> ownRow i' r -> i = i'.
Proof.
  intros P P' Ho Ho'. destruct (counted_phase i P) as [Ph L], (counted_phase i' P') as [Ph' L'].
  destruct (na_cases tab Lay i L Ph) as [E|E]; destruct (na_cases tab Lay i' L' Ph') as [E'|E'].
  - destruct Ho as [->|[? _]]; [|lia]. destruct Ho' as [->|[? _]]; [auto|lia].
  - destruct Ho as [->|[? _]]; [|lia]. destruct Ho' as [->|(_ & k & Hk & ->)]; auto.
    apply (rows_disjoint tab Lay _ i' (i' + 1 + k)); auto; [left; auto|apply row_in; auto].
  - destruct Ho' as [->|[? _]]; [|lia]. destruct Ho as [->|(_ & k & Hk & ->)]; auto.
    apply (rows_disjoint tab Lay i _ (i + 1 + k)); auto; [apply row_in; auto|left; auto].
  - destruct Ho as [->|(_ & k & Hk & ->)]; destruct Ho' as [E0|(_ & k' & Hk' & E0)]; auto.
    + exfalso. apply (phaseRow_no_component tab Lay i i'); auto. rewrite E0. now apply row_in.
    + exfalso. apply (phaseRow_no_component tab Lay i' i); auto. rewrite <- E0. now apply row_in.
    + apply (rows_disjoint tab Lay i i' (i + 1 + k)); auto; [now apply row_in|rewrite E0; now apply row_in].
Qed.
Theorem readBack_ok d0 e0 : let d := readBack tab imposed b s d0 e0 in
  dj d = length vars /\
  (hasLiquid s = true -> forall nl j, (nl < nLiq s)%nat -> (j < nlc tab)%nat -> dLiq d nl j = valL nl j) /\
  (forall i ns, (i < npc tab)%nat -> (ns < nSol s i)%nat -> readOk (dSol d) i ns).
Proof.
  cbv zeta. unfold readBack.
  set (d1 := if hasLiquid s then loop (nLiq s) (fun nl => loop (nlc tab) (readLiq imposed b s nl)) (mkDelta d0 e0 0) else mkDelta d0 e0 0).
  assert (H1 : dj d1 = length liqVars /\ (hasLiquid s = true -> forall nl j, (nl < nLiq s)%nat -> (j < nlc tab)%nat -> dLiq d1 nl j = valL nl j)).
  { unfold d1. destruct (hasLiquid s) eqn:E.
    - pose proof (readLiq_all (mkDelta d0 e0 0) eq_refl E) as K. cbv zeta in K. destruct K as (A & B & C). split; auto.
    - split; [unfold liqVars; rewrite E; reflexivity|discriminate]. }
  destruct H1 as [J1 L1].
  replace (length vars) with (posS (npc tab) 0 0) by (unfold posS, vars; rewrite app_length; unfold solVars; cbn; lia).
  assert (K : let d := loop (npc tab) (fun i => loop (nSol s i) (readSol tab imposed b s i)) d1 in
     dj d = posS (npc tab) 0 0 /\ dLiq d = dLiq d1 /\ (forall i ns, (i < npc tab)%nat -> (ns < nSol s i)%nat -> readOk (dSol d) i ns)).
  { cbv zeta. apply (loop_inv (fun n d => dj d = posS n 0 0 /\ dLiq d = dLiq d1 /\ (forall i ns, (i < n)%nat -> (ns < nSol s i)%nat -> readOk (dSol d) i ns))).
    - repeat split; auto; [rewrite J1; unfold posS; cbn; lia|intros; lia].
    - intros n d Hn (A & B & C). pose proof (readSol_phase n d A) as K. cbv zeta in K. destruct K as (K1 & K2 & K3 & K4).
      repeat split; auto; try congruence. intros i ns Hi Hns. destruct (Nat.eq_dec i n) as [->|Ne]; [now apply K3|].
      apply (readOk_ext (dSol d)); [|apply C; auto; lia]. intros r Hr. apply K4. intros [Hr' Hp]. apply Ne. apply (ownRow_disjoint i n r); auto. lia. }
  cbv zeta in K. destruct K as (A & B & C). split; auto. split; auto. intros HL nl j Hnl Hj. rewrite B. now apply L1.
Qed.
End Fix.
End S.
