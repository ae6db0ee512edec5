(** C17-C20, C41-C44: matter is neither created nor destroyed by the phase
    bookkeeping. The quantities are those of MassSpec.v. *)
From Coq Require Import Reals List Lia Lra Bool Arith.
From Verif Require Import MassModel MassSpec MassProofs MassOps MassDrop MassSolve MassFrac.
Open Scope R_scope.

(** A phase of the table that is not yet in the system. *)
Definition newPhase (tab : Tab) (s : St) (i : nat) : Prop :=
  (i < npc tab)%nat /\ isPhase tab i = true /\ nSol s i = O.

(** Every liquid component, and every oxide, is present in the same total
    amount in both states; the bulk composition is the same. *)
Definition conserved (tab : Tab) (s s' : St) : Prop :=
  (forall k, (k < nlc tab)%nat -> amount tab (component tab k) s' = amount tab (component tab k) s) /\
  ((forall o, (o < nc tab)%nat -> agrees tab (oxide tab o)) ->
   forall o, (o < nc tab)%nat -> amount tab (oxide tab o) s' = amount tab (oxide tab o) s) /\
  bulk s' = bulk s.

Lemma component_agrees tab k : (k < nlc tab)%nat -> agrees tab (component tab k).
Proof.
  intros H c Hc. cbn [perSol perLiq component].
  rewrite (sum_ext _ _ (fun j => if Nat.eqb j k then solToLiq tab c j else 0)).
  - rewrite sum_one_f. destruct (Nat.ltb_spec k (nlc tab)); [reflexivity|lia].
  - intros j _. destruct (Nat.eqb j k); ring.
Qed.
Lemma conserved_by tab s s' : (forall q, agrees tab q -> amount tab q s' = amount tab q s) -> bulk s' = bulk s ->
  conserved tab s s'.
Proof.
  intros H B. split; [|split]; auto. intros k Hk. apply H. now apply component_agrees.
Qed.

Lemma placeSolid_bulk tab index mSol m s : bulk (placeSolid tab index mSol m s) = bulk s.
Proof.
  unfold placeSolid. destruct (Nat.eqb (na tab index) 1); [reflexivity|]. cbn [bulk setNSol].
  generalize (setSol index 0 m s) (eq_refl : bulk (setSol index 0 m s) = bulk s). intros t E.
  assert (P : forall n, bulk (loop n (fun i s0 => addLiq tab 0
     (fun j => - (solToLiq tab (index + 1 + i) j * solC (setSol (index + 1 + i) 0 (mSol i * solC s0 index 0%nat) s0) (index + 1 + i)%nat 0%nat))
       (setSol (index + 1 + i) 0 (mSol i * solC s0 index 0%nat) s0)) t) = bulk t).
  { induction n; auto. }
  rewrite P. exact E.
Qed.
Lemma addSecondSolid_bulk tab index m x s : bulk (addSecondSolid tab index m x s) = bulk s.
Proof.
  unfold addSecondSolid. cbv zeta.
  match goal with |- bulk (loop ?n ?f ?t) = _ => assert (P : forall k, bulk (loop k f t) = bulk t) end.
  { induction k; [reflexivity|]. rewrite loop_S, <- IHk. set (u := loop k _ _). cbv beta zeta.
    cbn [hasLiquid setSol setSolC]. destruct (hasLiquid u); reflexivity. }
  rewrite P. cbn [hasLiquid setSol setSolC setNSol]. destruct (hasLiquid s); reflexivity.
Qed.

(** ** C41: with a liquid present, new phases take exactly what they hold from
    the first liquid (or the twin solid). *)
Theorem C41_add_solid : forall tab testLiq index mSol s s',
  layout tab -> newPhase tab s index -> (0 < nLiq s)%nat ->
  addSolidWithLiquid tab testLiq index mSol s = Some s' ->
  conserved tab s s' /\ 0 < solC s' index 0%nat <= MASSIN /\
  (forall i, nSol s' i = if Nat.eqb i index then 1%nat else nSol s i) /\
  testLiq (leftOver tab index mSol s (solC s' index 0%nat)) = true.
Proof.
  intros tab testLiq index mSol s s' Lay (Hi & Pi & N) L H. unfold addSolidWithLiquid in H.
  destruct (trial 64 _ MASSIN) as [m|] eqn:T; [|discriminate]. injection H as <-.
  destruct (trial_ok _ _ _ _ T) as [Ok Rg]. { unfold MASSIN. lra. }
  assert (Tot : solC (placeSolid tab index mSol m s) index 0%nat = m).
  { unfold placeSolid. destruct (Nat.eqb (na tab index) 1).
    - cbn. now rewrite upd2_eq.
    - cbn [solC setNSol].
      assert (P : forall n, solC (loop n (fun i s0 => addLiq tab 0
        (fun j => - (solToLiq tab (index + 1 + i) j * solC (setSol (index + 1 + i) 0 (mSol i * solC s0 index 0%nat) s0) (index + 1 + i)%nat 0%nat))
          (setSol (index + 1 + i) 0 (mSol i * solC s0 index 0%nat) s0)) (setSol index 0 m s)) index 0%nat = m).
      { induction n; [cbn; apply upd2_eq|]. rewrite loop_S. cbn [solC addLiq setLiqC setSol setSolC].
        rewrite upd2_row by lia. exact IHn. }
      apply P. }
  split; [|split; [|split]].
  - apply conserved_by; [|apply placeSolid_bulk]. intros q Agr. apply placeSolid_amount; auto.
  - rewrite Tot. exact Rg.
  - intros i. unfold placeSolid. cbn [nSol setNSol]. unfold upd.
    destruct (Nat.eqb i index); [reflexivity|]. destruct (Nat.eqb (na tab index) 1); [reflexivity|].
    match goal with |- nSol (loop ?n ?f ?t) i = _ => assert (P : forall k, nSol (loop k f t) i = nSol t i) end.
    { induction k; auto. }
    apply P.
  - rewrite Tot. exact Ok.
Qed.

Theorem C41_second_liquid : forall tab m s, layout tab -> (0 < nLiq s)%nat ->
  conserved tab s (addSecondLiquid tab m s) /\ nLiq (addSecondLiquid tab m s) = S (nLiq s).
Proof.
  intros tab m s Lay L. split; [|reflexivity]. apply conserved_by; [|reflexivity].
  intros q Agr. now apply addSecondLiquid_amount.
Qed.

(** with or without liquid *)
Theorem C41_second_solid : forall tab index m inmass s, layout tab ->
  (index < npc tab)%nat -> isPhase tab index = true -> (1 < na tab index)%nat -> (0 < nSol s index)%nat ->
  (hasLiquid s = true -> (0 < nLiq s)%nat) ->
  conserved tab s (addSecondSolid tab index m inmass s).
Proof.
  intros. apply conserved_by; [|apply addSecondSolid_bulk]. intros q Agr. now apply addSecondSolid_amount.
Qed.

(** ** The redox correction keeps phases and bulk in step. *)
Lemma redoxLiquid_imbalance tab redox nl s o : layout tab -> invertible tab -> (nl < nLiq s)%nat -> (o < nc tab)%nat ->
  bulk (redoxLiquid tab redox nl s) o - amount tab (oxide tab o) (redoxLiquid tab redox nl s) =
  bulk s o - amount tab (oxide tab o) s.
Proof.
  intros Lay Inv L Ho. unfold redoxLiquid. cbv zeta. set (m := redox (liqOxides tab s nl)).
  set (s1 := addBulk tab _ s).
  change (bulk (putLiq tab nl _ s1) o) with (bulk s1 o). unfold s1 at 1. rewrite (addBulk_at tab) by auto.
  unfold amount.
  match goal with |- context [putLiq tab nl ?g s1] => set (g0 := g) end.
  change (inSolids tab (oxide tab o) (putLiq tab nl g0 s1)) with (inSolids tab (oxide tab o) s).
  enough (inLiquids tab (oxide tab o) (putLiq tab nl g0 s1) = inLiquids tab (oxide tab o) s + (m o - liqOxides tab s nl o)) by lra.
  unfold inLiquids. change (nLiq (putLiq tab nl g0 s1)) with (nLiq s).
  rewrite (sum_at (nLiq s) nl _ (inLiquid tab (oxide tab o) s)).
  - f_equal. unfold inLiquid, liqOxides. cbn [perLiq oxide]. f_equal.
    + rewrite <- (Inv m o Ho). apply sum_ext. intros j Hj. rewrite putLiq_at by auto. unfold g0. ring.
    + apply sum_ext. intros; ring.
  - intros n _ Nn. unfold inLiquid. apply sum_ext. intros j Hj. cbn [liqC putLiq setLiqC].
    destruct (Nat.eqb_spec n nl); [congruence|]. reflexivity.
  - exact L.
Qed.
Lemma redoxAll_imbalance tab redox s o : layout tab -> invertible tab -> (o < nc tab)%nat ->
  bulk (redoxAll tab redox s) o - amount tab (oxide tab o) (redoxAll tab redox s) =
  bulk s o - amount tab (oxide tab o) s.
Proof.
  intros Lay Inv Ho. unfold redoxAll. destruct (fo2On s && hasLiquid s); [|reflexivity].
  assert (P : forall n, (n <= nLiq s)%nat -> nLiq (loop n (redoxLiquid tab redox) s) = nLiq s /\
     bulk (loop n (redoxLiquid tab redox) s) o - amount tab (oxide tab o) (loop n (redoxLiquid tab redox) s) =
     bulk s o - amount tab (oxide tab o) s).
  { induction n; intros Hn; [auto|]. destruct (IHn ltac:(lia)) as [A B]. rewrite loop_S. split; [exact A|].
    rewrite redoxLiquid_imbalance by (auto; rewrite A; lia). exact B. }
  apply P. lia.
Qed.
Lemma redoxAll_frame tab redox s : hasLiquid (redoxAll tab redox s) = hasLiquid s /\ nLiq (redoxAll tab redox s) = nLiq s /\
  nSol (redoxAll tab redox s) = nSol s /\ fo2On (redoxAll tab redox s) = fo2On s.
Proof.
  unfold redoxAll. destruct (fo2On s && hasLiquid s); [|auto].
  assert (P : forall n, hasLiquid (loop n (redoxLiquid tab redox) s) = hasLiquid s /\ nLiq (loop n (redoxLiquid tab redox) s) = nLiq s /\
    nSol (loop n (redoxLiquid tab redox) s) = nSol s /\ fo2On (loop n (redoxLiquid tab redox) s) = fo2On s).
  { induction n; auto. }
  apply P.
Qed.

(** ** C42: dropping phases while a liquid is present. *)
(** "too small to keep" *)
Definition exhausted (s : St) (i ns : nat) : Prop := solC s i ns < MASSOUT.

Lemma cnt_zero n p : (forall x, (x < n)%nat -> p x = false) -> cnt n p = O.
Proof. induction n; cbn; intros H; auto. rewrite IHn by auto. now rewrite H by lia. Qed.
Lemma cnt_all n p : (forall x, (x < n)%nat -> p x = true) -> cnt n p = n.
Proof. induction n; cbn; intros H; auto. rewrite IHn by auto. rewrite H by lia. lia. Qed.

Definition dropPost (tab : Tab) (s s' : St) : Prop :=
  counts tab s' /\ hasLiquid s' = true /\ nLiq s' = nLiq s /\ fo2On s' = fo2On s /\
  (* exactly the exhausted instances are gone *)
  (forall i, (i < npc tab)%nat -> isPhase tab i = true ->
     ((forall ns, (ns < nSol s i)%nat -> exhausted s i ns) -> nSol s' i = O) /\
     ((forall ns, (ns < nSol s i)%nat -> ~ exhausted s i ns) -> nSol s' i = nSol s i) /\
     (nSol s' i + cnt (nSol s i) (fun ns => if Rlt_dec (solC s i ns) MASSOUT then true else false) = nSol s i)%nat).

Lemma dropPost_counts tab s s' i : (i < npc tab)%nat -> isPhase tab i = true ->
  nSol s' i = cnt (nSol s i) (fun x => negb (small s i x)) ->
  ((forall ns, (ns < nSol s i)%nat -> exhausted s i ns) -> nSol s' i = O) /\
  ((forall ns, (ns < nSol s i)%nat -> ~ exhausted s i ns) -> nSol s' i = nSol s i) /\
  (nSol s' i + cnt (nSol s i) (fun ns => if Rlt_dec (solC s i ns) MASSOUT then true else false) = nSol s i)%nat.
Proof.
  intros Hi Pi E. rewrite E. split; [|split].
  - intros A. apply cnt_zero. intros x Hx. unfold small. destruct (Rlt_dec (solC s i x) MASSOUT) as [|Nn]; [reflexivity|].
    exfalso. apply Nn. now apply A.
  - intros A. apply cnt_all. intros x Hx. unfold small. destruct (Rlt_dec (solC s i x) MASSOUT) as [Y|]; [|reflexivity].
    exfalso. now apply (A x).
  - pose proof (cnt_neg (nSol s i) (small s i)) as Q.
    rewrite (cnt_ext _ (fun ns => if Rlt_dec (solC s i ns) MASSOUT then true else false) (small s i)) by reflexivity. lia.
Qed.

Theorem C42_drop_solids : forall tab corr phaseTest redox s,
  layout tab -> counts tab s -> hasLiquid s = true -> (0 < nLiq s)%nat -> fo2On s = false ->
  let s' := dropSolids tab corr phaseTest redox s in
  (forall k, (k < nlc tab)%nat -> amount tab (component tab k) s' = amount tab (component tab k) s) /\
  ((forall o, (o < nc tab)%nat -> agrees tab (oxide tab o)) ->
   forall o, (o < nc tab)%nat -> amount tab (oxide tab o) s' = amount tab (oxide tab o) s) /\
  dropPost tab s s'.
Proof.
  intros tab corr phaseTest redox s Lay Cn HL NL F. cbv zeta.
  assert (A : forall q, agrees tab q -> amount tab q (dropSolids tab corr phaseTest redox s) = amount tab q s).
  { intros q Agr.
    destruct (dropSolids_spec tab Lay q Agr 0 0 corr phaseTest redox false ltac:(discriminate) s Cn) as ((M & _) & _).
    { unfold okSt. auto. }
    unfold measure in M. rewrite !Rmult_0_l, !Rminus_0_r in M. exact M. }
  split; [|split].
  - intros k Hk. apply A. now apply component_agrees.
  - intros Ag o Ho. auto.
  - destruct (dropSolids_spec tab Lay (mkQ (fun _ => 0) (fun _ => 0))
       ltac:(intros c Hc; cbn; rewrite sum_0; auto; intros; ring) 0 0 corr phaseTest redox false ltac:(discriminate) s Cn)
      as ((_ & B & C & _ & D) & E & G). { unfold okSt. auto. }
    split; [exact E|]. split; [exact B|]. split; [exact C|]. split; [rewrite F; exact D|].
    intros i Hi Pi. apply (dropPost_counts tab); auto.
Qed.

(** On an oxygen fugacity path each drop is followed by a redox correction:
    then the phases still add up to the bulk. *)
Theorem C42_drop_solids_fo2 : forall tab corr phaseTest redox s,
  layout tab -> invertible tab -> (forall o, (o < nc tab)%nat -> agrees tab (oxide tab o)) ->
  counts tab s -> hasLiquid s = true -> (0 < nLiq s)%nat ->
  let s' := dropSolids tab corr phaseTest redox s in
  (forall o, (o < nc tab)%nat -> bulk s' o - amount tab (oxide tab o) s' = bulk s o - amount tab (oxide tab o) s) /\
  dropPost tab s s'.
Proof.
  intros tab corr phaseTest redox s Lay Inv Agr Cn HL NL. cbv zeta.
  assert (RO : forall o, (o < nc tab)%nat -> fo2On s = true -> forall s, (0 < nLiq s)%nat ->
     measure tab (oxide tab o) 1 o (redoxLiquid tab redox 0 s) = measure tab (oxide tab o) 1 o s).
  { intros o Ho _ u Hu. unfold measure. pose proof (redoxLiquid_imbalance tab redox 0 u o Lay Inv Hu Ho). lra. }
  split.
  - intros o Ho.
    destruct (dropSolids_spec tab Lay (oxide tab o) (Agr o Ho) 1 o corr phaseTest redox (fo2On s) (RO o Ho) s Cn) as ((M & _) & _).
    { unfold okSt. auto. }
    unfold measure in M. lra.
  - set (q0 := mkQ (fun _ => 0) (fun _ => 0)).
    assert (Z : forall u, measure tab q0 0 0 u = 0).
    { intros u. unfold measure, amount, inSolids, inLiquids, inLiquid, solidAmount. cbn [perSol perLiq q0].
      rewrite sum_0.
      - rewrite sum_0; [ring|]. intros n Hn. apply sum_0. intros; ring.
      - intros i Hi. destruct (isPhase tab i); [|reflexivity]. apply sum_0. intros n Hn.
        destruct (Nat.eqb (na tab i) 1); [ring|]. apply sum_0. intros; ring. }
    assert (A0 : agrees tab q0) by (intros c Hc; cbn; rewrite sum_0; auto; intros; ring).
    destruct (dropSolids_spec tab Lay q0 A0 0 0 corr phaseTest redox (fo2On s)
                ltac:(intros _ u _; now rewrite !Z) s Cn) as ((_ & B & C & _ & D) & E & G).
    { unfold okSt. auto. }
    split; [exact E|]. split; [exact B|]. split; [exact C|]. split; [exact D|].
    intros i Hi Pi. apply (dropPost_counts tab); auto.
Qed.

Lemma dropLiquid_frame tab nl s : hasLiquid (dropLiquid tab nl s) = hasLiquid s /\ nSol (dropLiquid tab nl s) = nSol s /\
  solC (dropLiquid tab nl s) = solC s /\ bulk (dropLiquid tab nl s) = bulk s /\ fo2On (dropLiquid tab nl s) = fo2On s /\
  ((nl < nLiq s)%nat /\ liqMass tab s nl < MASSOUT -> nLiq (dropLiquid tab nl s) = (nLiq s - 1)%nat) /\
  (~ ((nl < nLiq s)%nat /\ liqMass tab s nl < MASSOUT) -> dropLiquid tab nl s = s).
Proof.
  unfold dropLiquid. destruct (Nat.ltb_spec nl (nLiq s)) as [L|L]; cbn [negb].
  2:{ do 5 (split; [reflexivity|]). split; [lia|reflexivity]. }
  destruct (Rlt_dec (liqMass tab s nl) MASSOUT) as [Y|Y].
  2:{ do 5 (split; [reflexivity|]). split; [intros [_ ?]; contradiction|reflexivity]. }
  set (s1 := if Nat.ltb 0 nl then _ else s).
  assert (F1 : hasLiquid s1 = hasLiquid s /\ nSol s1 = nSol s /\ solC s1 = solC s /\ bulk s1 = bulk s /\ fo2On s1 = fo2On s /\ nLiq s1 = nLiq s)
    by (unfold s1; destruct (Nat.ltb 0 nl); repeat split).
  assert (P : forall n, let u := loop n (fun d s0 => addLiq tab (nl + d) (liqC s0 (nl + 1 + d)%nat) s0) s1 in
    hasLiquid u = hasLiquid s /\ nSol u = nSol s /\ solC u = solC s /\ bulk u = bulk s /\ fo2On u = fo2On s /\ nLiq u = nLiq s).
  { induction n; cbv zeta in *; [exact F1|]. rewrite loop_S. exact IHn. }
  specialize (P (nLiq s1 - (nl + 1))%nat). cbv zeta in P. set (u := loop _ _ s1) in *.
  destruct P as (A & B & C & D & E & G). cbn [hasLiquid nSol solC bulk fo2On nLiq setNLiq].
  do 5 (split; [assumption|]). split; [intros _; now rewrite G|]. intros H; exfalso; apply H; auto.
Qed.

(** With one or two liquids nothing is lost when liquids are dropped. *)
Theorem C42_drop_liquids : forall tab redox s,
  layout tab -> (0 < nLiq s <= 2)%nat ->
  let s' := dropLiquids tab redox s in
  nSol s' = nSol s /\ (0 < nLiq s' <= nLiq s)%nat /\ hasLiquid s' = hasLiquid s /\ fo2On s' = fo2On s /\
  (fo2On s = false -> bulk s' = bulk s /\ forall q, amount tab q s' = amount tab q s) /\
  (invertible tab -> forall o, (o < nc tab)%nat ->
     bulk s' o - amount tab (oxide tab o) s' = bulk s o - amount tab (oxide tab o) s).
Proof.
  intros tab redox s Lay N. cbv zeta. unfold dropLiquids.
  destruct (hasLiquid s) eqn:HL; cbn [andb].
  2:{ do 4 (split; [auto; lia|]). split; auto. }
  destruct (Nat.ltb_spec 1 (nLiq s)) as [L|L].
  2:{ do 4 (split; [auto; lia|]). split; auto. }
  assert (E2 : nLiq s = 2%nat) by lia.
  set (s' := loop (nLiq s) (dropLiquid tab) s).
  assert (Fr : hasLiquid s' = hasLiquid s /\ nSol s' = nSol s /\ bulk s' = bulk s /\ fo2On s' = fo2On s /\ (0 < nLiq s' <= 2)%nat /\
    forall q, amount tab q s' = amount tab q s).
  { unfold s'. rewrite E2. cbn [loop]. set (a := dropLiquid tab 0 s).
    destruct (dropLiquid_frame tab 0 s) as (A1 & B1 & C1 & D1 & G1 & I1 & J1). fold a in A1, B1, C1, D1, G1, I1, J1.
    destruct (dropLiquid_frame tab 1 a) as (A2 & B2 & C2 & D2 & G2 & I2 & J2).
    assert (M1 : forall q, amount tab q a = amount tab q s).
    { intros q. pose proof (dropLiquid_spec tab q 0 0 0 s ltac:(lia) ltac:(lia) ltac:(lia)) as M.
      unfold measure in M. fold a in M. rewrite !Rmult_0_l, !Rminus_0_r in M. exact M. }
    assert (Na : nLiq a = 2%nat \/ nLiq a = 1%nat).
    { destruct (Rlt_dec (liqMass tab s 0) MASSOUT) as [Y|Y].
      - right. rewrite I1 by (split; auto; lia). lia.
      - left. rewrite J1; auto. intros [_ Q]; contradiction. }
    assert (M2 : forall q, amount tab q (dropLiquid tab 1 a) = amount tab q a).
    { intros q. destruct Na as [Na|Na].
      - pose proof (dropLiquid_spec tab q 0 0 1 a ltac:(lia) ltac:(lia) ltac:(lia)) as M.
        unfold measure in M. rewrite !Rmult_0_l, !Rminus_0_r in M. exact M.
      - rewrite J2 by lia. reflexivity. }
    assert (N2 : (0 < nLiq (dropLiquid tab 1 a) <= 2)%nat).
    { destruct (Rlt_dec (liqMass tab a 1) MASSOUT) as [Y|Y].
      - destruct Na as [Na|Na]; [rewrite I2 by (split; auto; lia); lia|]. rewrite J2 by lia. lia.
      - rewrite J2 by (intros [_ Q]; contradiction). lia. }
    split; [congruence|]. split; [congruence|]. split; [congruence|]. split; [congruence|]. split; [lia|].
    intros q. rewrite M2. apply M1. }
  destruct Fr as (A & B & C & D & G & Am).
  destruct (Nat.ltb (nLiq s') (nLiq s) && fo2On s) eqn:T.
  - apply andb_prop in T. destruct T as [_ T].
    split; [exact B|]. split; [change (nLiq (redoxLiquid tab redox 0 s')) with (nLiq s'); lia|].
    split; [rewrite <- HL; exact A|]. split; [exact D|]. split; [congruence|].
    intros Inv o Ho. rewrite redoxLiquid_imbalance by (auto; lia). now rewrite C, Am.
  - split; [exact B|]. split; [lia|]. split; [congruence|]. split; [exact D|]. split; [auto|].
    intros Inv o Ho. now rewrite C, Am.
Qed.

(** ** C43: fractionation moves matter to the store. [cols] says how many
    columns of each solid the store keeps (at least those in the system). *)
Definition untouched (tab : Tab) (s t : St) (i ns : nat) : Prop :=
  forall c, c = i \/ componentRow tab i c -> solC t c ns = solC s c ns.
(** what a fractionated instance is left with: MASSIN moles in the same
    proportions *)
Definition residue (tab : Tab) (s t : St) (i ns : nat) : Prop :=
  solC t i ns = MASSIN /\
  forall c, componentRow tab i c -> c <> i -> solC t c ns = MASSIN * (solC s c ns / solC s i ns).

Definition moved (tab : Tab) (cols : nat -> nat) (s t : St) : Prop :=
  (* whatever leaves the phases is in the store *)
  (forall q, amount tab q t + fracAmount tab q cols t = amount tab q s + fracAmount tab q cols s) /\
  (* the bulk falls by the oxides in the store *)
  (forall o, (o < nc tab)%nat ->
     bulk t o + fracAmount tab (oxide tab o) cols t = bulk s o + fracAmount tab (oxide tab o) cols s) /\
  (* the reported fractionated mass is the mass of the store *)
  fracMass t - fracMass s = fracAmount tab (grams tab) cols t - fracAmount tab (grams tab) cols s /\
  (* and oxygen is accounted for on an oxygen fugacity path *)
  (fo2On s = true -> oxy t + fracAmount tab (moleO2 tab) cols t = oxy s + fracAmount tab (moleO2 tab) cols s).

Lemma fo2_fracColumn tab i ns s : fo2On (fracColumn tab i ns s) = fo2On s.
Proof.
  unfold fracColumn. destruct (Nat.ltb ns (nSol s i)); cbn [negb]; [|reflexivity].
  destruct (Rlt_dec _ _); [reflexivity|]. destruct (Nat.eqb (na tab i) 1).
  - cbn [fo2On setFracS]. destruct (fo2On s) eqn:F; cbn; auto.
  - cbn [fo2On setSol setSolC].
    match goal with |- fo2On (loop ?n ?f ?t) = _ => assert (P : forall k, fo2On (loop k f t) = fo2On t) end.
    { induction k; [reflexivity|]. rewrite loop_S, <- IHk. set (u := loop k _ _). cbv beta zeta.
      cbn [fo2On setFracS]. destruct (fo2On u) eqn:F; cbn; auto. }
    rewrite P. reflexivity.
Qed.
Lemma fo2_fracSolids tab part s : fo2On (fracSolids tab part s) = fo2On s.
Proof.
  unfold fracSolids. generalize (npc tab). intros n. induction n; [reflexivity|]. rewrite loop_S, <- IHn.
  destruct (part n); [|reflexivity]. set (t := loop n _ s). generalize (nSol t n). intros m.
  induction m; [reflexivity|]. rewrite loop_S, fo2_fracColumn. exact IHm.
Qed.
Lemma fo2_fracLiquids tab s : fo2On (fracLiquids tab s) = fo2On s.
Proof.
  unfold fracLiquids. generalize (nLiq s). intros n. induction n; [reflexivity|]. rewrite loop_S, <- IHn.
  set (t := loop n _ s). unfold fracLiquid. cbv zeta. destruct (Rlt_dec _ _); [reflexivity|].
  generalize (sum (nlc tab) (liqC t n)). intros r. generalize (nlc tab) at 1. intros m.
  induction m; [reflexivity|]. rewrite loop_S, <- IHm. set (u := loop m _ t). unfold fracLiqComponent. cbv zeta.
  destruct (Req_EM_T _ _); [reflexivity|]. destruct (Req_EM_T _ _); [reflexivity|].
  cbn [fo2On setFracL]. destruct (fo2On u) eqn:F; cbn; auto.
Qed.

Theorem C43_fractionate_solids : forall tab cols part s,
  layout tab -> counts tab s -> (forall i, (nSol s i <= cols i)%nat) ->
  let t := fracSolids tab part s in
  moved tab cols s t /\ nSol t = nSol s /\ liqC t = liqC s /\ nLiq t = nLiq s /\
  (forall i ns, (i < npc tab)%nat -> isPhase tab i = true -> (ns < nSol s i)%nat ->
     (part i = true /\ MASSIN <= solC s i ns -> residue tab s t i ns) /\
     (part i = false \/ solC s i ns < MASSIN -> untouched tab s t i ns)).
Proof.
  intros tab cols part s Lay Cn Hc. cbv zeta.
  assert (G : forall L, Ledger tab cols L -> L (fracSolids tab part s) = L s).
  { intros L LL. apply (fracSolids_spec tab Lay cols L part s LL Cn Hc). }
  destruct (fracSolids_spec tab Lay cols _ part s (ledger_mass tab Lay cols) Cn Hc) as (_ & B & C & D & E & F).
  split; [|split; [exact B|split; [exact E|split; [exact C|]]]].
  - split; [|split; [|split]].
    + intros q. apply (G _ (ledger_matter tab Lay cols q)).
    + intros o Ho. apply (G _ (ledger_bulk tab Lay cols o Ho)).
    + pose proof (G _ (ledger_mass tab Lay cols)) as Q. cbv beta in Q. lra.
    + intros Fo. pose proof (G _ (ledger_oxygen tab Lay cols)) as Q. cbv beta in Q.
      rewrite fo2_fracSolids, Fo in Q. exact Q.
  - exact F.
Qed.

Theorem C43_fractionate_liquids : forall tab cols s, layout tab ->
  let t := fracLiquids tab s in
  moved tab cols s t /\ nSol t = nSol s /\ solC t = solC s /\ nLiq t = nLiq s /\
  (forall nl, (nl < nLiq s)%nat ->
    let moles := sum (nlc tab) (liqC s nl) in
    (moles < MASSIN -> forall j, liqC t nl j = liqC s nl j) /\
    (MASSIN <= moles -> forall j, (j < nlc tab)%nat -> liqC t nl j = MASSIN * (liqC s nl j / moles))).
Proof.
  intros tab cols s Lay. cbv zeta.
  assert (G : forall L, Ledger tab cols L -> L (fracLiquids tab s) = L s).
  { intros L LL. apply (fracLiquids_spec tab cols L s LL). }
  destruct (fracLiquids_spec tab cols _ s (ledger_mass tab Lay cols)) as (_ & B & C & D & F).
  split; [|split; [exact B|split; [exact D|split; [exact C|exact F]]]].
  split; [|split; [|split]].
  - intros q. apply (G _ (ledger_matter tab Lay cols q)).
  - intros o Ho. apply (G _ (ledger_bulk tab Lay cols o Ho)).
  - pose proof (G _ (ledger_mass tab Lay cols)) as Q. cbv beta in Q. lra.
  - intros Fo. pose proof (G _ (ledger_oxygen tab Lay cols)) as Q. cbv beta in Q.
    rewrite fo2_fracLiquids, Fo in Q. exact Q.
Qed.

(** The step that follows, and forgets traces, does nothing as long as no
    oxide (other than Fe2O3) is present in a trace amount. *)
Theorem C43_no_traces : forall tab s,
  (forall o, (o < nc tab)%nat -> bulk s o = 0 \/ MASSOUT <= bulk s o \/ isFe2O3 tab o = true) ->
  clearTraces tab s = s.
Proof. exact clearTraces_none. Qed.

(** Which phases take part: all of them if both kinds are fractionated, all
    but the fluid for solids only, only the fluid for fluids only. *)
Theorem C43_which_phases : forall isFluid frSol frFlu i, frSol = true \/ frFlu = true ->
  (takesPart isFluid frSol frFlu i = true <-> (if isFluid i then frFlu = true else frSol = true)).
Proof.
  intros isFluid frSol frFlu i H. unfold takesPart.
  destruct (isFluid i), frSol, frFlu; cbn; intuition congruence.
Qed.

(** ** C44: assimilation. *)
Theorem C44_assimilate : forall tab a f s,
  layout tab -> (forall o, (o < nc tab)%nat -> agrees tab (oxide tab o)) ->
  (0 < nLiq s)%nat -> (hasLiquid s = false -> emptyAbsent tab s) ->
  let t := assimilate tab a f s in
  forall o, (o < nc tab)%nat ->
    bulk t o = bulk s o + f * assimAmount tab a (oxide tab o) /\
    amount tab (oxide tab o) t = amount tab (oxide tab o) s + f * assimAmount tab a (oxide tab o).
Proof.
  intros tab a f s Lay Agr NL Em. cbv zeta. intros o Ho.
  destruct (assimilate_spec tab Lay a f (oxide tab o) o s (Agr o Ho) Ho) as [A B]; auto.
Qed.

(** ** C45: whole runs. Any sequence of these operations, in any order and any
    number, keeps the phases adding up to the bulk composition. *)
Section Run.
Variable tab : Tab.
Variable corr : Corr.
Variable phaseTest : nat -> (nat -> R) -> bool.
Variable redox : (nat -> R) -> nat -> R.

Inductive step (s : St) : St -> Prop :=
| st_add testLiq index mSol s' : newPhase tab s index ->
    addSolidWithLiquid tab testLiq index mSol s = Some s' -> step s (redoxAll tab redox s')
| st_second_liquid m : step s (addSecondLiquid tab m s)
| st_second_solid index m x : (index < npc tab)%nat -> isPhase tab index = true -> (1 < na tab index)%nat ->
    (0 < nSol s index)%nat -> step s (addSecondSolid tab index m x s)
| st_drop_solids : step s (dropSolids tab corr phaseTest redox s)
| st_drop_liquids : (nLiq s <= 2)%nat -> step s (dropLiquids tab redox s)
| st_frac_solids part : step s (fracSolids tab part s)
| st_frac_liquids : step s (fracLiquids tab s)
| st_assimilate a f : step s (assimilate tab a f s).
Inductive steps : St -> St -> Prop :=
| steps_0 s : steps s s
| steps_S s t u : steps s t -> step t u -> steps s u.

(** what holds throughout *)
Definition wf (s : St) : Prop := counts tab s /\ hasLiquid s = true /\ (0 < nLiq s)%nat.

Hypothesis Lay : layout tab.
Hypothesis Agr : forall o, (o < nc tab)%nat -> agrees tab (oxide tab o).
Hypothesis Inv : invertible tab.

Lemma assim_frame a f s : hasLiquid s = true ->
  nSol (assimilate tab a f s) = nSol s /\ hasLiquid (assimilate tab a f s) = true /\ nLiq (assimilate tab a f s) = nLiq s.
Proof.
  intros H.
  set (ok := fun t => nSol t = nSol s /\ hasLiquid t = true /\ nLiq t = nLiq s).
  assert (K0 : ok s) by (unfold ok; auto).
  assert (LO : forall n g t, ok t -> (forall i t, ok t -> ok (g i t)) -> ok (loop n g t)).
  { induction n; intros; [auto|]. rewrite loop_S. auto. }
  assert (KC : forall c x t, ok t -> ok (assimComponent tab f c x t)).
  { intros c x t (A & B & C). unfold assimComponent, ok. cbv zeta.
    destruct (hasLiquid (addBulk tab _ t)); cbn; auto. }
  assert (KO : forall x t, ok t -> ok (if fo2On t then setOxy x t else t)).
  { intros x t (A & B & C). destruct (fo2On t); unfold ok; auto. }
  assert (KT : forall t u, ok t -> ok (if hasLiquid t then t else u)).
  { intros t u K. pose proof K as (_ & B & _). now rewrite B. }
  change (ok (assimilate tab a f s)). unfold assimilate. cbv zeta. apply LO.
  - apply LO; auto. intros i t K. apply LO; auto. intros ns u Ku. unfold assimColumn. cbv zeta.
    destruct (isPhase tab i); auto. destruct (Nat.eqb (na tab i) 1).
    + apply KO, KT, KC, Ku.
    + destruct (Nat.ltb 1 (na tab i)); auto.
  - intros ns t K. unfold assimLiquid. cbv zeta. apply LO.
    + destruct K as (A & B & C). unfold ok; auto.
    + intros j u Ku. apply KO. destruct Ku as (A & B & C). unfold ok; auto.
Qed.

Lemma step_wf s s' : wf s -> step s s' -> wf s'.
Proof.
  intros (Cn & HL & NL) St. destruct St as [testLiq index mSol s' Np E|m|index m x Hi Pi N Ps| |N2|part| |a f].
  - destruct (redoxAll_frame tab redox s') as (A & B & C & D).
    pose proof (C41_add_solid tab testLiq index mSol s s' Lay Np NL E) as (_ & _ & K & _).
    unfold addSolidWithLiquid in E. destruct (trial _ _ _) as [mm|]; [|discriminate]. injection E as E.
    assert (F : hasLiquid s' = hasLiquid s /\ nLiq s' = nLiq s).
    { rewrite <- E. unfold placeSolid. cbn [hasLiquid nLiq setNSol]. destruct (Nat.eqb (na tab index) 1); [split; reflexivity|].
      match goal with |- hasLiquid (loop ?n ?f ?t) = _ /\ _ => assert (P : forall k, hasLiquid (loop k f t) = hasLiquid t /\ nLiq (loop k f t) = nLiq t) end.
      { induction k; auto. } apply P. }
    destruct F as [F1 F2]. unfold wf. rewrite A, B, F1, F2. split; [|auto].
    destruct Np as (Hi & Pi & _). destruct Cn as (C1 & C2 & C3). unfold counts. rewrite C.
    split; [|split]; intros i; rewrite K; destruct (Nat.eqb_spec i index) as [->|]; auto; intros; try congruence; lia.
  - unfold wf. split; [exact Cn|]. split; [exact HL|]. cbn. lia.
  - assert (F : nSol (addSecondSolid tab index m x s) = upd (nSol s) index (S (nSol s index)) /\
               hasLiquid (addSecondSolid tab index m x s) = hasLiquid s /\ nLiq (addSecondSolid tab index m x s) = nLiq s).
    { unfold addSecondSolid. cbv zeta.
      match goal with |- nSol (loop ?n ?f ?t) = _ /\ _ => assert (P : forall k, nSol (loop k f t) = nSol t /\ hasLiquid (loop k f t) = hasLiquid t /\ nLiq (loop k f t) = nLiq t) end.
      { induction k; [auto|]. rewrite loop_S. set (u := loop k _ _) in *. cbv beta zeta.
        cbn [hasLiquid setSol setSolC]. destruct (hasLiquid u) eqn:Hu; cbn [nSol nLiq hasLiquid addLiq setLiqC setSol setSolC] in *; rewrite ?Hu; exact IHk. }
      destruct (P (na tab index)) as (P1 & P2 & P3). rewrite P1, P2, P3.
      cbn [hasLiquid setSol setSolC setNSol]. destruct (hasLiquid s) eqn:Hs; cbn; rewrite ?Hs; repeat split. }
    destruct F as (F1 & F2 & F3). unfold wf. rewrite F2, F3. split; [|auto].
    destruct Cn as (C1 & C2 & C3). unfold counts. rewrite F1. unfold upd.
    split; [|split]; intros i; destruct (Nat.eqb_spec i index) as [->|]; auto; intros; try congruence; lia.
  - destruct (C42_drop_solids_fo2 tab corr phaseTest redox s Lay Inv Agr Cn HL NL) as (_ & A & B & C & _).
    unfold wf. cbv zeta in *. rewrite B, C. auto.
  - destruct (C42_drop_liquids tab redox s Lay ltac:(lia)) as (A & B & C & _). cbv zeta in *.
    unfold wf, counts. rewrite A, C. split; [exact Cn|]. split; [exact HL|lia].
  - destruct (fracSolids_spec tab Lay (nSol s) _ part s (ledger_mass tab Lay (nSol s)) Cn (fun i => le_n _)) as (_ & B & C & D & _).
    unfold wf, counts. cbv zeta in *. rewrite B, C, D. auto.
  - destruct (fracLiquids_spec tab (nSol s) _ s (ledger_mass tab Lay (nSol s))) as (_ & B & C & _). cbv zeta in *.
    unfold wf, counts. rewrite B, C. split; [exact Cn|]. split; [|exact NL].
    rewrite <- HL. unfold fracLiquids. generalize (nLiq s). intros n. induction n; [reflexivity|]. rewrite loop_S, <- IHn.
    set (t := loop n _ s). unfold fracLiquid. cbv zeta. destruct (Rlt_dec _ _); [reflexivity|].
    generalize (sum (nlc tab) (liqC t n)). intros r. generalize (nlc tab) at 1. intros m.
    induction m; [reflexivity|]. rewrite loop_S, <- IHm. set (u := loop m _ t). unfold fracLiqComponent. cbv zeta.
    destruct (Req_EM_T _ _); [reflexivity|]. destruct (Req_EM_T _ _); [reflexivity|].
    cbn [fo2On setFracL]. destruct (fo2On u) eqn:F; cbn; auto.
  - destruct (assim_frame a f s HL) as (A & B & C). unfold wf, counts. rewrite A, C. auto.
Qed.

Lemma step_imbalance s s' o : wf s -> step s s' -> (o < nc tab)%nat ->
  bulk s' o - amount tab (oxide tab o) s' = bulk s o - amount tab (oxide tab o) s.
Proof.
  intros (Cn & HL & NL) St Ho. destruct St as [testLiq index mSol s' Np E|m|index m x Hi Pi N Ps| |N2|part| |a f].
  - rewrite redoxAll_imbalance by auto.
    destruct (C41_add_solid tab testLiq index mSol s s' Lay Np NL E) as ((_ & A & B) & _).
    rewrite B, (A Agr o Ho). reflexivity.
  - destruct (C41_second_liquid tab m s Lay NL) as ((_ & A & B) & _). rewrite B, (A Agr o Ho). reflexivity.
  - destruct (C41_second_solid tab index m x s Lay Hi Pi N Ps (fun _ => NL)) as (_ & A & B). rewrite B, (A Agr o Ho). reflexivity.
  - apply (C42_drop_solids_fo2 tab corr phaseTest redox s Lay Inv Agr Cn HL NL). auto.
  - apply (C42_drop_liquids tab redox s Lay ltac:(lia)); auto.
  - destruct (C43_fractionate_solids tab (nSol s) part s Lay Cn (fun i => le_n _)) as ((A & B & _) & _).
    specialize (A (oxide tab o)). specialize (B o Ho). cbv zeta in *. lra.
  - destruct (C43_fractionate_liquids tab (nSol s) s Lay) as ((A & B & _) & _).
    specialize (A (oxide tab o)). specialize (B o Ho). cbv zeta in *. lra.
  - destruct (C44_assimilate tab a f s Lay Agr NL ltac:(congruence) o Ho) as [A B]. lra.
Qed.

Theorem C45_runs_balanced : forall s s', wf s -> balanced tab s -> steps s s' -> wf s' /\ balanced tab s'.
Proof.
  intros s s' W B St. induction St as [|s t u St IH Sp]; auto. destruct (IH W B) as [W' B'].
  split; [now apply (step_wf t)|]. intros o Ho. pose proof (step_imbalance t u o W' Sp Ho) as E.
  rewrite (B' o Ho) in E. lra.
Qed.
End Run.
