(** Amounts before and after a step, and the rows of the constraint matrix. *)
From Coq Require Import Reals List Lia Lra Bool Arith.
From Verif Require Import MassModel MassSpec MassProofs StepModel StepProofs.
Import ListNotations.
Open Scope R_scope.

Section S.
Variable tab : Tab.
Variable imposed : bool.
Hypothesis Lay : layout tab.

(** the changes, as if they were a state *)
Definition asState (s : St) (d : Delta) : St := setSolC (dSol d) (setLiqC (dLiq d) s).
Definition coefQ (q : Quantity) (v : Var) : R := match v with VLiq _ j => perLiq q j | VSol m _ => perSol q m end.
(** liquid counted only when there is one *)
Definition held (q : Quantity) (s : St) : R := inSolids tab q s + (if hasLiquid s then inLiquids tab q s else 0).

Section Fix.
Variable s : St.
Hypothesis Cnt : counts tab s.
Variable b : nat -> R.
Variable q : Quantity.
Notation keep x := (if nonlin imposed s then 0 else x).

Lemma change_b x j : b j = change imposed b s x j + keep x.
Proof. unfold change. destruct (nonlin imposed s); ring. Qed.
Lemma dot_cellL nl i : dotFrom (coefQ q) b (posL tab s nl i) (onlyPresent s (VLiq nl i)) = perLiq q i * (valL tab imposed s b nl i + keep (liqC s nl i)).
Proof.
  unfold onlyPresent, valL. destruct (present s (VLiq nl i)) eqn:E; cbn [dotFrom coefQ].
  - rewrite (change_b (liqC s nl i) (posL tab s nl i)). ring.
  - cbn [present] in E. destruct (Req_EM_T (liqC s nl i) 0) as [Z|]; [|discriminate]. rewrite Z. destruct (nonlin imposed s); ring.
Qed.
Lemma dot_cellC i ns k : dotFrom (coefQ q) b (posS tab s i ns k) (onlyPresent s (VSol (i + 1 + k) ns)) =
  perSol q (i + 1 + k) * (valC tab imposed s b i ns k + keep (solC s (i + 1 + k)%nat ns)).
Proof.
  unfold onlyPresent, valC. destruct (present s (VSol (i + 1 + k) ns)) eqn:E; cbn [dotFrom coefQ].
  - rewrite (change_b (solC s (i + 1 + k)%nat ns) (posS tab s i ns k)). ring.
  - cbn [present] in E. destruct (Req_EM_T (solC s (i + 1 + k)%nat ns) 0) as [Z|]; [|discriminate]. rewrite Z. destruct (nonlin imposed s); ring.
Qed.
Lemma sum_keep n (f g : nat -> R) : sum n (fun i => f i + keep (g i)) = sum n f + keep (sum n g).
Proof. rewrite sum_plus. f_equal. destruct (nonlin imposed s); [apply sum_zero|reflexivity]. Qed.

Theorem dot_vars d0 e0 : let d := readBack tab imposed b s d0 e0 in
  dotFrom (coefQ q) b 0 (vars tab s) = held q (asState s d) + keep (held q s).
Proof.
  cbv zeta. pose proof (readBack_ok tab imposed Lay s Cnt b d0 e0) as K. cbv zeta in K. destruct K as (_ & KL & KS).
  set (d := readBack tab imposed b s d0 e0) in *.
  unfold vars. rewrite dotFrom_app. cbn [Nat.add].
  assert (EL : dotFrom (coefQ q) b 0 (liqVars tab s) = (if hasLiquid s then inLiquids tab q (asState s d) else 0) + keep (if hasLiquid s then inLiquids tab q s else 0)).
  { unfold liqVars. destruct (hasLiquid s) eqn:HL; [|cbn; destruct (nonlin imposed s); ring].
    rewrite dotFrom_flat. unfold inLiquids. cbn [asState nLiq setSolC setLiqC]. rewrite <- sum_keep. apply sum_ext. intros nl Hnl. cbn [Nat.add].
    unfold cellsL at 2. rewrite dotFrom_flat. unfold inLiquid. rewrite <- sum_keep. apply sum_ext. intros i Hi.
    change (length (flat_map (cellsL tab s) (seq 0 nl)) + length (flat_map (fun j => onlyPresent s (VLiq nl j)) (seq 0 i)))%nat with (posL tab s nl i).
    rewrite dot_cellL. cbn [asState liqC setSolC setLiqC]. rewrite (KL eq_refl nl i Hnl Hi). destruct (nonlin imposed s); ring. }
  assert (ES : dotFrom (coefQ q) b (length (liqVars tab s)) (solVars tab s) = inSolids tab q (asState s d) + keep (inSolids tab q s)).
  { unfold solVars. rewrite dotFrom_flat. unfold inSolids. rewrite <- sum_keep. apply sum_ext. intros i Hi.
    destruct (isPhase tab i) eqn:Pi.
    2:{ unfold phaseVars at 2. destruct Cnt as (C1 & _). rewrite (C1 i Pi). cbn. destruct (nonlin imposed s); ring. }
    unfold phaseVars at 2. rewrite dotFrom_flat. cbn [asState nSol setSolC setLiqC]. rewrite <- sum_keep. apply sum_ext. intros ns Hns.
    specialize (KS i ns Hi Hns). unfold readOk in KS. unfold cellsS at 2. unfold solidAmount. cbn [asState solC setSolC setLiqC].
    destruct (Nat.eqb_spec (na tab i) 1) as [E|E].
    - cbn [dotFrom coefQ]. rewrite KS.
      rewrite (change_b (solC s i ns)). replace (length (liqVars tab s) + length (flat_map (phaseVars tab s) (seq 0 i)) + length (flat_map (cellsS tab s i) (seq 0 ns)))%nat with (posS tab s i ns 0) by (unfold posS; cbn; lia).
      destruct (nonlin imposed s); ring.
    - destruct KS as [KC _]. rewrite dotFrom_flat, <- sum_keep. apply sum_ext. intros k Hk.
      change (length (liqVars tab s) + length (flat_map (phaseVars tab s) (seq 0 i)) + length (flat_map (cellsS tab s i) (seq 0 ns)) + length (flat_map (fun k0 => onlyPresent s (VSol (i + 1 + k0) ns)) (seq 0 k)))%nat with (posS tab s i ns k).
      rewrite dot_cellC, KC by auto. destruct (nonlin imposed s); ring. }
  rewrite EL, ES. unfold held. cbn [asState hasLiquid setSolC setLiqC]. destruct (nonlin imposed s); ring.
Qed.
End Fix.

(** ** The move *)
Section Move.
Variable d : Delta.
Variable lam : R.
Variable corr : nat -> nat -> R.

Definition liqOp (nl i : nat) (s : St) : St :=
  let s := setLiq nl i (liqC s nl i + lam * dLiq d nl i) s in
  if fo2On s then setLiq nl i (liqC s nl i + corr nl i) s else s.
(** everything but one array is the same *)
Definition sameButLiq (s s' : St) : Prop :=
  hasLiquid s' = hasLiquid s /\ nLiq s' = nLiq s /\ nSol s' = nSol s /\ solC s' = solC s /\ bulk s' = bulk s /\ fo2On s' = fo2On s.
Definition sameButSol (s s' : St) : Prop :=
  hasLiquid s' = hasLiquid s /\ nLiq s' = nLiq s /\ nSol s' = nSol s /\ liqC s' = liqC s /\ bulk s' = bulk s /\ fo2On s' = fo2On s.
Lemma liqOp_spec nl i s : sameButLiq s (liqOp nl i s) /\
  forall nl' i', liqC (liqOp nl i s) nl' i' = liqC s nl' i' + (if Nat.eqb nl' nl && Nat.eqb i' i then lam * dLiq d nl i + (if fo2On s then corr nl i else 0) else 0).
Proof.
  unfold liqOp. cbn [fo2On setLiq setLiqC]. destruct (fo2On s) eqn:F.
  - split; [repeat split; auto|]. intros nl' i'. cbn [liqC setLiq setLiqC]. unfold upd2. rewrite !Nat.eqb_refl. cbn [andb].
    destruct (Nat.eqb_spec nl' nl) as [->|]; cbn [andb]; [|ring]. destruct (Nat.eqb_spec i' i) as [->|]; ring.
  - split; [repeat split; auto|]. intros nl' i'. cbn [liqC setLiq setLiqC]. unfold upd2.
    destruct (Nat.eqb_spec nl' nl) as [->|]; cbn [andb]; [|ring]. destruct (Nat.eqb_spec i' i) as [->|]; ring.
Qed.
Lemma moveLiquids_spec s : let s' := moveLiquids tab d lam corr s in sameButLiq s s' /\
  (hasLiquid s = false -> s' = s) /\
  (hasLiquid s = true -> forall nl i, (nl < nLiq s)%nat -> (i < nlc tab)%nat ->
     liqC s' nl i = liqC s nl i + (lam * dLiq d nl i + (if fo2On s then corr nl i else 0))).
Proof.
  cbv zeta. unfold moveLiquids. destruct (hasLiquid s) eqn:HL; [|split; [repeat split; auto|split; [auto|discriminate]]].
  change (fun nl => loop (nlc tab) (fun i s0 => let s1 := setLiq nl i (liqC s0 nl i + lam * dLiq d nl i) s0 in if fo2On s1 then setLiq nl i (liqC s1 nl i + corr nl i) s1 else s1)) with (fun nl => loop (nlc tab) (liqOp nl)).
  assert (K : forall n, let s' := loop n (fun nl => loop (nlc tab) (liqOp nl)) s in sameButLiq s s' /\
     forall nl i, liqC s' nl i = liqC s nl i + (if Nat.ltb nl n && Nat.ltb i (nlc tab) then lam * dLiq d nl i + (if fo2On s then corr nl i else 0) else 0)).
  { induction n; cbv zeta in *; [split; [repeat split; auto|intros; cbn; ring]|]. cbn [loop]. set (s1 := loop n _ s) in *. destruct IHn as [A B].
    assert (I : forall m, let s' := loop m (liqOp n) s1 in sameButLiq s s' /\ forall nl i, liqC s' nl i = liqC s1 nl i + (if Nat.eqb nl n && Nat.ltb i m then lam * dLiq d nl i + (if fo2On s then corr nl i else 0) else 0)).
    { induction m; cbv zeta in *; [split; auto; intros nl i; cbn [loop]; destruct (Nat.ltb_spec i 0); [lia|rewrite andb_false_r; ring]|]. cbn [loop]. destruct IHm as [A' B'].
      destruct (liqOp_spec n m (loop m (liqOp n) s1)) as [A2 B2]. unfold sameButLiq in *. split; [intuition congruence|].
      intros nl i. rewrite B2, B'. replace (fo2On (loop m (liqOp n) s1)) with (fo2On s) by intuition congruence.
      destruct (Nat.eqb_spec nl n) as [->|]; cbn [andb]; [|ring].
      destruct (Nat.eqb_spec i m) as [->|]; [rewrite Nat.ltb_irrefl; replace (m <? S m)%nat with true by (symmetry; apply Nat.ltb_lt; lia); ring|].
      replace (i <? S m)%nat with (i <? m)%nat by (destruct (Nat.ltb_spec i m), (Nat.ltb_spec i (S m)); lia). ring. }
    destruct (I (nlc tab)) as [A' B']. split; auto. intros nl i. rewrite B', B.
    destruct (Nat.eqb_spec nl n) as [->|].
    - rewrite Nat.ltb_irrefl. replace (n <? S n)%nat with true by (symmetry; apply Nat.ltb_lt; lia). cbn [andb]. destruct (Nat.ltb i (nlc tab)); ring.
    - cbn [andb]. replace (nl <? S n)%nat with (nl <? n)%nat by (destruct (Nat.ltb_spec nl n), (Nat.ltb_spec nl (S n)); lia). ring. }
  destruct (K (nLiq s)) as [A B]. split; auto. split; [discriminate|]. intros _ nl i Hnl Hi. rewrite B.
  apply Nat.ltb_lt in Hnl, Hi. now rewrite Hnl, Hi.
Qed.

(** one instance of a phase *)
Lemma moveSolid_spec i ns s : (1 <= na tab i)%nat -> let s' := moveSolid tab d lam i ns s in sameButSol s s' /\
  (forall r, ownRow tab i r -> solC s' r ns = solC s r ns + lam * dSol d r ns) /\
  (forall r ns', (ns' <> ns \/ ~ ownRow tab i r) -> solC s' r ns' = solC s r ns').
Proof.
  intros N1. cbv zeta. unfold moveSolid. destruct (Nat.ltb_spec 1 (na tab i)) as [N|N].
  - set (s1 := setSol i ns (solC s i ns + lam * dSol d i ns) s).
    assert (I : forall m, let s' := loop m (fun j s => setSol (i + 1 + j) ns (solC s (i + 1 + j)%nat ns + lam * dSol d (i + 1 + j)%nat ns) s) s1 in
      sameButSol s s' /\ (forall r ns', solC s' r ns' = solC s1 r ns' + (if Nat.eqb ns' ns && (Nat.ltb i r && Nat.leb r (i + m)) then lam * dSol d r ns else 0))).
    { induction m; cbv zeta in *.
      - split; [repeat split; auto|]. intros r ns'. cbn [loop]. replace (i <? r)%nat with (negb (r <=? i)%nat) by (destruct (Nat.ltb_spec i r), (Nat.leb_spec r i); auto; lia).
        rewrite Nat.add_0_r. destruct (Nat.eqb ns' ns), (r <=? i)%nat; cbn; ring.
      - cbn [loop]. set (s2 := loop m _ s1) in *. destruct IHm as [A B]. split; [unfold sameButSol in *; cbn; intuition|].
        intros r ns'. cbn [solC setSol setSolC]. unfold upd2. rewrite !B.
        destruct (Nat.eqb_spec r (i + 1 + m)) as [->|Nr]; cbn [andb].
        + destruct (Nat.eqb_spec ns' ns) as [->|]; cbn [andb]; [|ring].
          rewrite Nat.eqb_refl. cbn [andb]. replace (i + 1 + m <=? i + m)%nat with false by (symmetry; apply Nat.leb_gt; lia).
          replace (i <? i + 1 + m)%nat with true by (symmetry; apply Nat.ltb_lt; lia). replace (i + 1 + m <=? i + S m)%nat with true by (symmetry; apply Nat.leb_le; lia).
          cbn [andb]. ring.
        + replace (r <=? i + S m)%nat with (r <=? i + m)%nat by (destruct (Nat.leb_spec r (i + m)), (Nat.leb_spec r (i + S m)); auto; lia). ring. }
    destruct (I (na tab i)) as [A B]. split; auto. unfold s1 in B. cbn [solC setSol setSolC] in B. split.
    + intros r Ho. rewrite B. unfold upd2. rewrite Nat.eqb_refl. destruct Ho as [->|(_ & k & Hk & ->)].
      * rewrite Nat.eqb_refl, Nat.ltb_irrefl. cbn [andb]. ring.
      * replace (i + 1 + k =? i) with false by (symmetry; apply Nat.eqb_neq; lia). replace (i <? i + 1 + k)%nat with true by (symmetry; apply Nat.ltb_lt; lia).
        replace (i + 1 + k <=? i + na tab i)%nat with true by (symmetry; apply Nat.leb_le; lia). cbn [andb]. ring.
    + intros r ns' H. rewrite B. unfold upd2. destruct (Nat.eqb_spec ns' ns) as [->|Hn].
      * destruct H as [|H]; [congruence|]. destruct (Nat.eqb_spec r i) as [->|Hr]; [exfalso; apply H; now left|]. cbn [andb].
        destruct (Nat.ltb_spec i r), (Nat.leb_spec r (i + na tab i)); cbn [andb]; try ring.
        exfalso. apply H. right. split; [lia|]. exists (r - i - 1)%nat. lia.
      * rewrite andb_false_r. cbn [andb]. ring.
  - assert (E : na tab i = 1%nat) by lia. split; [repeat split; auto|]. split.
    + intros r [->|[? _]]; [|lia]. cbn [solC setSol setSolC]. now rewrite upd2_eq.
    + intros r ns' H. cbn [solC setSol setSolC]. destruct H as [|H]; [now rewrite upd2_col|]. rewrite upd2_row; auto. intros ->. apply H. now left.
Qed.
Lemma sameButSol_trans s1 s2 s3 : sameButSol s1 s2 -> sameButSol s2 s3 -> sameButSol s1 s3.
Proof. unfold sameButSol. intuition congruence. Qed.
Lemma movePhase_spec i s : (1 <= na tab i)%nat -> let s' := loop (nSol s i) (moveSolid tab d lam i) s in sameButSol s s' /\
  (forall r ns, ownRow tab i r -> (ns < nSol s i)%nat -> solC s' r ns = solC s r ns + lam * dSol d r ns) /\
  (forall r ns, ~ (ownRow tab i r /\ (0 < nSol s i)%nat) -> solC s' r ns = solC s r ns).
Proof.
  intros N. cbv zeta.
  assert (K : sameButSol s (loop (nSol s i) (moveSolid tab d lam i) s) /\
    (forall r ns, ownRow tab i r -> solC (loop (nSol s i) (moveSolid tab d lam i) s) r ns = solC s r ns + (if Nat.ltb ns (nSol s i) then lam * dSol d r ns else 0)) /\
    (forall r ns, ~ (ownRow tab i r /\ (0 < nSol s i)%nat) -> solC (loop (nSol s i) (moveSolid tab d lam i) s) r ns = solC s r ns)).
  { apply (loop_inv (fun n s' => sameButSol s s' /\ (forall r ns, ownRow tab i r -> solC s' r ns = solC s r ns + (if Nat.ltb ns n then lam * dSol d r ns else 0)) /\
      (forall r ns, ~ (ownRow tab i r /\ (0 < nSol s i)%nat) -> solC s' r ns = solC s r ns))).
    - repeat split; auto. intros. cbn. ring.
    - intros n s' Hn (A & B & C). pose proof (moveSolid_spec i n s' N) as K. cbv zeta in K. destruct K as (K1 & K2 & K3).
      split; [eapply sameButSol_trans; eauto|]. split.
      + intros r ns Ho. destruct (Nat.eq_dec ns n) as [->|Ne].
        * rewrite K2, B by auto. rewrite Nat.ltb_irrefl. replace (n <? S n)%nat with true by (symmetry; apply Nat.ltb_lt; lia). ring.
        * rewrite K3, B by auto. replace (ns <? S n)%nat with (ns <? n)%nat by (destruct (Nat.ltb_spec ns n), (Nat.ltb_spec ns (S n)); auto; lia). ring.
      + intros r ns Hr. rewrite K3; [now apply C|]. right. intros Ho. apply Hr. split; auto. lia. }
  destruct K as (A & B & C). split; auto. split; auto. intros r ns Ho Hns. rewrite B by auto. apply Nat.ltb_lt in Hns. now rewrite Hns.
Qed.
Lemma moveSolids_spec s : counts tab s -> let s' := moveSolids tab d lam s in sameButSol s s' /\
  (forall i r ns, (i < npc tab)%nat -> (ns < nSol s i)%nat -> ownRow tab i r -> solC s' r ns = solC s r ns + lam * dSol d r ns).
Proof.
  intros Cnt. cbv zeta. unfold moveSolids.
  assert (K : sameButSol s (loop (npc tab) (fun i s => loop (nSol s i) (moveSolid tab d lam i) s) s) /\
    (forall i r ns, (i < npc tab)%nat -> (ns < nSol s i)%nat -> ownRow tab i r -> solC (loop (npc tab) (fun i s => loop (nSol s i) (moveSolid tab d lam i) s) s) r ns = solC s r ns + (if Nat.ltb i (npc tab) then lam * dSol d r ns else 0))).
  { apply (loop_inv (fun n s' => sameButSol s s' /\ (forall i r ns, (i < npc tab)%nat -> (ns < nSol s i)%nat -> ownRow tab i r -> solC s' r ns = solC s r ns + (if Nat.ltb i n then lam * dSol d r ns else 0)))).
    - split; [repeat split; auto|]. intros. cbn. ring.
    - intros n s' Hn (A & B). assert (EN : nSol s' n = nSol s n) by (destruct A as (_ & _ & A & _); now rewrite A).
      destruct (Nat.eq_dec (nSol s n) 0) as [Z|Z].
      + rewrite EN, Z. cbn [loop]. split; auto. intros i r ns Hi Hns Ho. rewrite (B i r ns) by auto.
        assert (i <> n) by (intros ->; lia).
        now replace (i <? S n)%nat with (i <? n)%nat by (destruct (Nat.ltb_spec i n), (Nat.ltb_spec i (S n)); auto; lia).
      + destruct (counted_phase tab s Cnt n ltac:(lia)) as [Pn _].
        destruct (Lay n Hn Pn) as [N _]. pose proof (movePhase_spec n s' N) as K. cbv zeta in K. destruct K as (K1 & K2 & K3).
        split; [eapply sameButSol_trans; eauto|]. intros i r ns Hi Hns Ho. destruct (Nat.eq_dec i n) as [->|Ne].
        * rewrite K2, (B n r ns) by (auto; lia). rewrite Nat.ltb_irrefl. replace (n <? S n)%nat with true by (symmetry; apply Nat.ltb_lt; lia). ring.
        * rewrite K3, (B i r ns); auto.
          -- now replace (i <? S n)%nat with (i <? n)%nat by (destruct (Nat.ltb_spec i n), (Nat.ltb_spec i (S n)); auto; lia).
          -- intros [Ho' _]. apply Ne. apply (ownRow_disjoint tab Lay s Cnt i n r); auto; lia. }
  destruct K as (A & B). split; auto. intros i r ns Hi Hns Ho. rewrite (B i r ns) by auto. apply Nat.ltb_lt in Hi. now rewrite Hi.
Qed.

(** the whole move, before the bulk composition is recomputed *)
Definition moved (s : St) : St := moveSolids tab d lam (moveLiquids tab d lam corr s).
Theorem moved_spec s : counts tab s -> let s' := moved s in
  hasLiquid s' = hasLiquid s /\ nLiq s' = nLiq s /\ nSol s' = nSol s /\ bulk s' = bulk s /\ fo2On s' = fo2On s /\
  (forall i r ns, (i < npc tab)%nat -> (ns < nSol s i)%nat -> ownRow tab i r -> solC s' r ns = solC s r ns + lam * dSol d r ns) /\
  (hasLiquid s = false -> liqC s' = liqC s) /\
  (hasLiquid s = true -> forall nl i, (nl < nLiq s)%nat -> (i < nlc tab)%nat ->
     liqC s' nl i = liqC s nl i + (lam * dLiq d nl i + (if fo2On s then corr nl i else 0))).
Proof.
  intros Cnt. cbv zeta. unfold moved. pose proof (moveLiquids_spec s) as KL. cbv zeta in KL. destruct KL as ((A1 & A2 & A3 & A4 & A5 & A6) & B & C).
  set (s1 := moveLiquids tab d lam corr s) in *.
  assert (Cnt1 : counts tab s1) by (unfold counts in *; rewrite A3; auto).
  pose proof (moveSolids_spec s1 Cnt1) as KS. cbv zeta in KS. destruct KS as ((E1 & E2 & E3 & E4 & E5 & E6) & F).
  set (s2 := moveSolids tab d lam s1) in *.
  repeat split; try congruence.
  - intros i r ns Hi Hns Ho. rewrite (F i r ns) by (auto; rewrite A3; auto). now rewrite A4.
  - intros HL. rewrite E4. now rewrite (B HL).
  - intros HL nl i Hnl Hi. rewrite E4. now apply C.
Qed.
Variable q : Quantity.
Lemma moved_solids s : counts tab s -> inSolids tab q (moved s) = inSolids tab q s + lam * inSolids tab q (asState s d).
Proof.
  intros Cnt. pose proof (moved_spec s Cnt) as K. cbv zeta in K. destruct K as (_ & _ & N & _ & _ & F & _).
  unfold inSolids. rewrite <- sum_scal, <- sum_plus. apply sum_ext. intros i Hi. destruct (isPhase tab i) eqn:Pi; [|ring].
  rewrite N. cbn [asState nSol setSolC setLiqC]. rewrite <- sum_scal, <- sum_plus. apply sum_ext. intros ns Hns. unfold solidAmount. cbn [asState solC setSolC setLiqC].
  destruct (Nat.eqb_spec (na tab i) 1) as [E|E].
  - rewrite (F i i ns) by (auto; now left). ring.
  - rewrite <- sum_scal, <- sum_plus. apply sum_ext. intros k Hk. rewrite (F i (i + 1 + k)%nat ns); auto; [ring|]. right. split; auto. now exists k.
Qed.
Lemma moved_liquids s : counts tab s -> hasLiquid s = true -> inLiquids tab q (moved s) = inLiquids tab q s + lam * inLiquids tab q (asState s d)
   + (if fo2On s then sum (nLiq s) (fun nl => sum (nlc tab) (fun j => perLiq q j * corr nl j)) else 0).
Proof.
  intros Cnt HL. pose proof (moved_spec s Cnt) as K. cbv zeta in K. destruct K as (_ & N & _ & _ & _ & _ & _ & F).
  unfold inLiquids. rewrite N. cbn [asState nLiq setSolC setLiqC]. rewrite <- sum_scal.
  replace (if fo2On s then sum (nLiq s) (fun nl => sum (nlc tab) (fun j => perLiq q j * corr nl j)) else 0) with (sum (nLiq s) (fun nl => if fo2On s then sum (nlc tab) (fun j => perLiq q j * corr nl j) else 0)) by (destruct (fo2On s); [reflexivity|apply sum_zero]).
  rewrite <- !sum_plus. apply sum_ext. intros nl Hnl. unfold inLiquid. cbn [asState liqC setSolC setLiqC]. rewrite <- sum_scal.
  replace (if fo2On s then sum (nlc tab) (fun j => perLiq q j * corr nl j) else 0) with (sum (nlc tab) (fun j => if fo2On s then perLiq q j * corr nl j else 0)) by (destruct (fo2On s); [reflexivity|apply sum_zero]).
  rewrite <- !sum_plus. apply sum_ext. intros j Hj. rewrite F by auto. destruct (fo2On s); ring.
Qed.
Theorem moved_held s : counts tab s -> held q (moved s) = held q s + lam * held q (asState s d)
   + (if hasLiquid s && fo2On s then sum (nLiq s) (fun nl => sum (nlc tab) (fun j => perLiq q j * corr nl j)) else 0).
Proof.
  intros Cnt. unfold held. rewrite moved_solids by auto. pose proof (moved_spec s Cnt) as K. cbv zeta in K. destruct K as (H & _).
  rewrite H. cbn [asState hasLiquid setSolC setLiqC]. destruct (hasLiquid s) eqn:HL; cbn [andb]; [rewrite moved_liquids by auto; ring|ring].
Qed.
End Move.

(** ** The rows *)
Section Rows.
Variables iF2 iF3 : nat.
Variable s : St.
Variable vs : list Var.
Variables (C0 : nat -> nat -> R) (d0 : nat -> R).
Notation fillOxide := (fillOxide tab imposed iF2 iF3 vs s).
Definition rhs (o : nat) : R := if nonlin imposed s then 0 else bulk s o.
Definition filled (f : Fill) (o : nat) : Prop := exists r, (r < fk f)%nat /\ (forall j, fC f r j = oxideRow tab vs o j) /\ fd f r = rhs o.

Lemma fill_plain : fo2On s = false -> forall n, let f := loop n fillOxide (mkFill O C0 d0 None) in
  fk f = length (filter (fun i => negb (isZero (bulk s i))) (seq 0 n)) /\ forall o, (o < n)%nat -> bulk s o <> 0 -> filled f o.
Proof.
  intros F. induction n; cbv zeta in *; [split; [reflexivity|intros; lia]|]. cbn [loop]. set (f := loop n fillOxide _) in *. destruct IHn as [A B].
  rewrite seq_snoc, filter_app, app_length, <- A. unfold StepModel.fillOxide. cbn [filter].
  destruct (isZero (bulk s n)) eqn:Z; cbn [negb length].
  - split; [lia|]. intros o Ho Hb. apply B; auto. assert (o <> n); [|lia]. intros ->. unfold isZero in Z. destruct (Req_EM_T (bulk s n) 0); [contradiction|discriminate].
  - rewrite F. cbv zeta. cbn [fk fC fd]. split; [lia|]. intros o Ho Hb. destruct (Nat.eq_dec o n) as [->|Ne].
    + exists (fk f). cbn [fk fC fd]. split; [lia|]. unfold upd. rewrite !Nat.eqb_refl. split; auto.
    + destruct (B o ltac:(lia) Hb) as (r & R1 & R2 & R3). exists r. cbn [fk fC fd]. split; [lia|]. unfold upd.
      replace (r =? fk f)%nat with false by (symmetry; apply Nat.eqb_neq; lia). auto.
Qed.

(** with a buffer: rows of other oxides, and the combined row for iron *)
Definition scaled (o : nat) (j : nat) : R := if Nat.eqb o iF3 then oxideRow tab vs o j * 2 else oxideRow tab vs o j.
Notation lo := (Nat.min iF3 iF2).
Notation hi := (Nat.max iF3 iF2).
Lemma fill_buffered : fo2On s = true -> iF2 <> iF3 -> bulk s lo <> 0 -> forall n, let f := loop n fillOxide (mkFill O C0 d0 None) in
  (fk f + (if Nat.ltb hi n && negb (isZero (bulk s hi)) then 1 else 0) = length (filter (fun i => negb (isZero (bulk s i))) (seq 0 n)))%nat /\
  (if Nat.ltb lo n then exists km, fkMin f = Some km /\ (km < fk f)%nat /\ fd f km = 0 /\
      (forall j, fC f km j = scaled lo j + (if Nat.ltb hi n && negb (isZero (bulk s hi)) then scaled hi j else 0)) /\
      (forall o, (o < n)%nat -> bulk s o <> 0 -> o <> iF2 -> o <> iF3 -> exists r, (r < fk f)%nat /\ r <> km /\ (forall j, fC f r j = oxideRow tab vs o j) /\ fd f r = 0)
   else forall o, (o < n)%nat -> bulk s o <> 0 -> o <> iF2 -> o <> iF3 -> filled f o).
Proof.
  intros F Dif HM. assert (NL : nonlin imposed s = true) by (unfold nonlin; rewrite F; apply orb_true_r).
  induction n; cbv zeta in *.
  { cbn [loop]. split; [reflexivity|]. replace (lo <? 0)%nat with false by (symmetry; apply Nat.ltb_ge; lia). intros; lia. }
  cbn [loop]. set (f := loop n fillOxide _) in *. destruct IHn as [A B].
  rewrite seq_snoc, filter_app, app_length, <- A. unfold StepModel.fillOxide. cbn [filter].
  assert (ZB : forall o, isZero (bulk s o) = true -> bulk s o = 0) by (intros o; unfold isZero; destruct (Req_EM_T (bulk s o) 0); [auto|discriminate]).
  assert (Z0 : forall o, isZero (bulk s o) = false -> bulk s o <> 0) by (intros o; unfold isZero; destruct (Req_EM_T (bulk s o) 0); [discriminate|auto]).
  assert (LS : forall x, (x <? S n)%nat = if Nat.eqb n x then true else (x <? n)%nat).
  { intros x. destruct (Nat.eqb_spec n x), (Nat.ltb_spec x n), (Nat.ltb_spec x (S n)); auto; lia. }
  destruct (isZero (bulk s n)) eqn:Z; cbn [negb length].
  - assert (Nl : n <> lo) by (intros ->; apply HM; now apply ZB).
    rewrite !LS. apply Nat.eqb_neq in Nl. rewrite Nl.
    assert (E : ((if n =? hi then true else (hi <? n)%nat) && negb (isZero (bulk s hi)))%bool = ((hi <? n)%nat && negb (isZero (bulk s hi)))%bool).
    { destruct (Nat.eqb_spec n hi) as [<-|]; auto. rewrite Z. cbn. now rewrite andb_false_r. }
    rewrite E. split; [lia|]. destruct (Nat.ltb lo n).
    + destruct B as (km & B1 & B2 & B3 & B4 & B5). exists km. repeat split; auto. intros o Ho Hb N2 N3. apply B5; auto.
      assert (o <> n); [intros ->; apply Hb; now apply ZB|lia].
    + intros o Ho Hb N2 N3. apply B; auto. assert (o <> n); [intros ->; apply Hb; now apply ZB|lia].
  - rewrite F, NL. cbv zeta. rewrite !LS.
    destruct (Nat.eqb_spec n lo) as [El|Nl].
    + (* the first of the two iron oxides *)
      assert (Nh : n <> hi) by lia. assert (Lh : (hi <? n)%nat = false) by (apply Nat.ltb_ge; lia). assert (Ll : (lo <? n)%nat = false) by (apply Nat.ltb_ge; lia).
      rewrite Lh in *. rewrite Ll in B. cbn [andb] in *. apply Nat.eqb_neq in Nh. rewrite Nh. cbn [andb fk fkMin fC fd]. split; [lia|].
      exists (fk f). split; [auto|split; [lia|split; [unfold upd; now rewrite Nat.eqb_refl|split]]].
      * intros j. rewrite <- El. unfold scaled. destruct (Nat.eqb n iF3); unfold upd; rewrite !Nat.eqb_refl; ring.
      * intros o Ho Hb N2 N3. destruct (B o ltac:(lia) Hb N2 N3) as (r & R1 & R2 & R3). exists r. split; [lia|split; [lia|]].
        assert (Er : (r =? fk f)%nat = false) by (apply Nat.eqb_neq; lia). unfold rhs in R3. rewrite NL in R3.
        split; [|unfold upd; now rewrite Er]. intros j. destruct (Nat.eqb n iF3); unfold upd; rewrite !Er; apply R2.
    + destruct (Nat.eqb_spec n hi) as [Eh|Nh].
      * (* the second *)
        assert (Ll : (lo <? n)%nat = true) by (apply Nat.ltb_lt; lia). rewrite Ll in *. assert (Lh : (hi <? n)%nat = false) by (apply Nat.ltb_ge; lia). rewrite Lh in *.
        destruct B as (km & B1 & B2 & B3 & B4 & B5). rewrite B1. cbn [andb fk fkMin fC fd]. rewrite <- Eh, Z. cbn [negb]. split; [cbn [andb] in A; lia|].
        assert (Ek : (km =? fk f)%nat = false) by (apply Nat.eqb_neq; lia). assert (Ek' : (fk f =? km)%nat = false) by (apply Nat.eqb_neq; lia).
        exists km. repeat split; auto.
        -- unfold upd. now rewrite Ek.
        -- intros j. cbn [andb] in B4. specialize (B4 j). unfold scaled at 2.
           destruct (Nat.eqb n iF3); unfold upd; rewrite ?Nat.eqb_refl, ?Ek, ?Ek', ?Nat.eqb_refl, B4; ring.
        -- intros o Ho Hb N2 N3. assert (o <> n) by lia. destruct (B5 o ltac:(lia) Hb N2 N3) as (r & R1 & R2 & R3 & R4). exists r.
           assert (Er : (r =? fk f)%nat = false) by (apply Nat.eqb_neq; lia). assert (Er' : (r =? km)%nat = false) by (now apply Nat.eqb_neq).
           repeat split; auto; [|unfold upd; now rewrite Er]. intros j. destruct (Nat.eqb n iF3); unfold upd; rewrite Er', ?Er; apply R3.
      * (* any other oxide *)
        assert (N2 : n <> iF2) by lia. assert (N3 : n <> iF3) by lia. apply Nat.eqb_neq in N3. rewrite N3. cbn [fk fkMin fC fd]. split; [lia|].
        assert (E0 : forall x j, (x < fk f)%nat -> upd (fC f) (fk f) (oxideRow tab vs n) x j = fC f x j).
        { intros x j Hx. unfold upd. now replace (x =? fk f)%nat with false by (symmetry; apply Nat.eqb_neq; lia). }
        assert (E1 : forall x, (x < fk f)%nat -> upd (fd f) (fk f) 0 x = fd f x).
        { intros x Hx. unfold upd. now replace (x =? fk f)%nat with false by (symmetry; apply Nat.eqb_neq; lia). }
        destruct (Nat.ltb lo n).
        -- destruct B as (km & B1 & B2 & B3 & B4 & B5). exists km. repeat split; auto; try lia.
           ++ now rewrite E1.
           ++ intros j. now rewrite E0.
           ++ intros o Ho Hb O2 O3. destruct (Nat.eq_dec o n) as [->|Ne].
              ** exists (fk f). repeat split; try lia; unfold upd; rewrite Nat.eqb_refl; auto.
              ** destruct (B5 o ltac:(lia) Hb O2 O3) as (r & R1 & R2 & R3 & R4). exists r. repeat split; auto; try lia; [intros j; now rewrite E0|now rewrite E1].
        -- intros o Ho Hb O2 O3. destruct (Nat.eq_dec o n) as [->|Ne].
           ++ exists (fk f). cbn [fk fC fd]. split; [lia|]. unfold upd. rewrite !Nat.eqb_refl. split; auto. unfold rhs. now rewrite NL.
           ++ destruct (B o ltac:(lia) Hb O2 O3) as (r & R1 & R2 & R3). exists r. cbn [fk fC fd]. split; [lia|]. split; [intros j; now rewrite E0|now rewrite E1].
Qed.
End Rows.
End S.
