(** Proofs about adding and dropping phases. *)
From Coq Require Import Reals List Lia Lra Bool Arith.
From Verif Require Import MassModel MassSpec MassProofs.
Open Scope R_scope.

(** everything but the contents of liquids and solids *)
Definition rest (s s' : St) : Prop :=
  hasLiquid s' = hasLiquid s /\ bulk s' = bulk s /\ fracS s' = fracS s /\ fracL s' = fracL s /\
  fracMass s' = fracMass s /\ oxy s' = oxy s /\ fo2On s' = fo2On s.
Lemma rest_refl s : rest s s. Proof. repeat split. Qed.
Lemma rest_trans a b c : rest a b -> rest b c -> rest a c.
Proof. unfold rest. intuition congruence. Qed.

(** the halving loops *)
Lemma trial_ok fuel ok m r : trial fuel ok m = Some r -> 0 < m -> ok r = true /\ 0 < r <= m.
Proof.
  revert m. induction fuel; simpl; intros m H Hm; [discriminate|].
  destruct (ok m) eqn:E; [inversion H; subst; split; auto; lra|].
  destruct (Rlt_dec (m * (1/2)) (10 * DBL_EPSILON)); [discriminate|].
  destruct (IHfuel _ H); [lra|]. split; auto. lra.
Qed.

(** 64 rounds are enough: the loop stops by itself, whatever is tested. *)
Lemma trial_fuel k ok m : m < 10 * DBL_EPSILON * 2 ^ k -> forall extra,
  trial (S k + extra) ok m = trial (S k) ok m.
Proof.
  revert m. induction k; intros m H extra.
  - simpl in H. simpl. destruct (ok m); auto.
    destruct (Rlt_dec (m * (1/2)) (10 * DBL_EPSILON)) as [|N]; auto. exfalso. apply N.
    assert (0 < DBL_EPSILON) by (unfold DBL_EPSILON; apply Rinv_0_lt_compat; apply pow_lt; lra). lra.
  - change (S (S k) + extra)%nat with (S (S k + extra)).
    change (trial (S (S k + extra)) ok m) with
      (if ok m then Some m else if Rlt_dec (m * (1/2)) (10 * DBL_EPSILON) then None
       else trial (S k + extra) ok (m * (1/2))).
    change (trial (S (S k)) ok m) with
      (if ok m then Some m else if Rlt_dec (m * (1/2)) (10 * DBL_EPSILON) then None
       else trial (S k) ok (m * (1/2))).
    destruct (ok m); auto. destruct (Rlt_dec _ _); auto. apply IHk. simpl in H. lra.
Qed.
Lemma inmass_rounds ok extra : trial (64 + extra) ok MASSIN = trial 64 ok MASSIN.
Proof.
  apply (trial_fuel 63). unfold MASSIN, DBL_EPSILON.
  replace (2 ^ 63) with (2 ^ 52 * 2 ^ 11) by (rewrite <- pow_add; reflexivity).
  replace (10 * / 2 ^ 52 * (2 ^ 52 * 2 ^ 11)) with (10 * 2 ^ 11).
  - simpl. lra.
  - field.
Qed.

Ltac csp := repeat match goal with |- _ /\ _ => split end; try reflexivity.

Section Ops.
Variable tab : Tab.
Hypothesis Lay : layout tab.

Lemma putLiq_at nl a s j : (j < nlc tab)%nat -> liqC (putLiq tab nl a s) nl j = a j.
Proof.
  intros H. unfold putLiq, setLiqC, liqC. rewrite Nat.eqb_refl. destruct (Nat.ltb_spec j (nlc tab)); [reflexivity|lia].
Qed.
Lemma addLiq_at nl a s j : (j < nlc tab)%nat -> liqC (addLiq tab nl a s) nl j = liqC s nl j + a j.
Proof.
  intros H. unfold addLiq, setLiqC, liqC. rewrite Nat.eqb_refl. destruct (Nat.ltb_spec j (nlc tab)); [reflexivity|lia].
Qed.
Lemma addLiq_other nl a s nl' j : nl' <> nl -> liqC (addLiq tab nl a s) nl' j = liqC s nl' j.
Proof.
  intros H. unfold addLiq, setLiqC, liqC. destruct (Nat.eqb_spec nl' nl); [congruence|reflexivity].
Qed.

Section Q.
Variable q : Quantity.
Hypothesis Agr : agrees tab q.

Notation amount := (amount tab q).
Notation inSolids := (inSolids tab q).
Notation inLiquids := (inLiquids tab q).

(** *** adding a solid next to a liquid *)
Lemma setNSol_new s i n : (i < npc tab)%nat -> isPhase tab i = true ->
  inSolids (setNSol (upd (nSol s) i n) s) =
  inSolids s + (sum n (solidAmount tab q s i) - sum (nSol s i) (solidAmount tab q s i)).
Proof.
  intros Hi Pi. rewrite (inSolids_local tab q Lay s _ i); auto.
  - f_equal. unfold phaseSum. simpl. unfold upd at 1. rewrite Nat.eqb_refl.
    f_equal.
  - intros i' Ne. simpl. unfold upd. destruct (Nat.eqb_spec i' i); congruence.
Qed.

Lemma placeSolid_amount index mSol inmass s :
  (index < npc tab)%nat -> isPhase tab index = true -> nSol s index = O -> (0 < nLiq s)%nat ->
  amount (placeSolid tab index mSol inmass s) = amount s.
Proof.
  intros Hi Pi N0 NL. unfold placeSolid.
  set (s1 := setSol index 0 inmass s).
  destruct (na_cases tab Lay index Hi Pi) as [E|N].
  - rewrite E. cbn [Nat.eqb].
    set (s2 := addLiq tab 0 (fun j => - (solToLiq tab index j * solC s1 index 0)) s1).
    assert (Rw : componentRow tab index index) by (left; auto).
    assert (L2 : inLiquids s2 = inLiquids s - perSol q index * inmass).
    { unfold s2. rewrite inLiquids_addLiq by exact NL.
      change (inLiquids s1) with (inLiquids s).
      unfold s1. cbn. rewrite upd2_eq.
      rewrite (sum_ext _ _ (fun j => - (perLiq q j * (solToLiq tab index j * inmass)))) by (intros; ring).
      rewrite sum_opp, (agrees_scal tab q index inmass Agr Hi). ring. }
    unfold MassSpec.amount.
    rewrite (setNSol_new s2 index 1) by auto.
    replace (nSol s2 index) with O by (symmetry; exact N0).
    change (inLiquids (setNSol (upd (nSol s2) index 1%nat) s2)) with (inLiquids s2).
    rewrite L2.
    replace (inSolids s2) with (inSolids s).
    + cbn [sum]. unfold solidAmount. rewrite E. cbn. rewrite upd2_eq. ring.
    + change (inSolids s2) with (inSolids s1). unfold s1. rewrite (inSolids_setSol tab q Lay s index index); auto.
      rewrite N0. cbn. ring.
  - destruct (Nat.eqb_spec (na tab index) 1); [lia|].
    match goal with |- context [loop (na tab index) ?f s1] => set (F := f) end.
    assert (P : forall m, (m <= na tab index)%nat ->
      let s' := loop m F s1 in
      nSol s' = nSol s /\ nLiq s' = nLiq s /\ solC s' index 0%nat = inmass /\
      (forall i, (i < m)%nat -> solC s' (index+1+i)%nat 0%nat = mSol i * inmass) /\
      inSolids s' = inSolids s /\
      inLiquids s' = inLiquids s - sum m (fun i => perSol q (index+1+i) * (mSol i * inmass))).
    { induction m; intros Hm; cbn [loop].
      - cbn zeta. split; [|split; [|split; [|split; [|split]]]].
        + reflexivity.
        + reflexivity.
        + unfold s1. cbn. apply upd2_eq.
        + intros i Hi'; lia.
        + unfold s1. apply inSolids_setTotal; auto.
        + unfold s1. change (inLiquids (setSol index 0 inmass s)) with (inLiquids s). cbn. ring.
      - destruct (IHm ltac:(lia)) as (A & B & C & D & S & L). clear IHm.
        set (t := loop m F s1) in *. cbn zeta. unfold F.
        set (t1 := setSol (index+1+m) 0 (mSol m * solC t index 0%nat) t).
        assert (Rw : componentRow tab index (index+1+m)) by (apply row_in; auto; lia).
        assert (V : solC t1 (index+1+m)%nat 0%nat = mSol m * inmass) by (unfold t1; cbn; rewrite upd2_eq, C; auto).
        split; [|split; [|split; [|split; [|split]]]].
        + exact A.
        + exact B.
        + unfold t1; cbn. rewrite upd2_row by lia. exact C.
        + intros i Hi'. unfold t1; cbn. destruct (Nat.eq_dec i m) as [->|Ne].
          * rewrite upd2_eq, C. auto.
          * rewrite upd2_row by lia. apply D. lia.
        + change (inSolids (addLiq tab 0 (fun j => - (solToLiq tab (index+1+m) j * solC t1 (index+1+m)%nat 0%nat)) t1))
            with (inSolids t1).
          unfold t1. rewrite (inSolids_setSol tab q Lay t index); auto. rewrite A, N0. cbn. rewrite S. ring.
        + rewrite inLiquids_addLiq by (change (nLiq t1) with (nLiq t); rewrite B; exact NL).
          change (inLiquids t1) with (inLiquids t). rewrite L, V. cbn [sum].
          rewrite (sum_ext (nlc tab) _ (fun j => - (perLiq q j * (solToLiq tab (index+1+m) j * (mSol m * inmass))))) by (intros; ring).
          rewrite sum_opp, (agrees_scal tab q _ _ Agr) by (eapply row_lt; eauto). ring. }
    destruct (P (na tab index) (le_n _)) as (A & B & C & D & S & L). clear P.
    set (t := loop (na tab index) F s1) in *.
    unfold MassSpec.amount. rewrite (setNSol_new t index 1) by auto.
    rewrite A, N0. change (inLiquids (setNSol (upd (nSol s) index 1%nat) t)) with (inLiquids t).
    rewrite L, S. cbn [sum]. unfold solidAmount. destruct (Nat.eqb_spec (na tab index) 1); [lia|].
    rewrite (sum_ext (na tab index) (fun j => perSol q (index + 1 + j) * solC t (index + 1 + j)%nat 0%nat)
       (fun i => perSol q (index+1+i) * (mSol i * inmass))) by (intros; rewrite D; auto).
    ring.
Qed.


(** *** a second liquid, a second instance of a solid *)
Lemma addSecondLiquid_amount m s : (0 < nLiq s)%nat ->
  amount (addSecondLiquid tab m s) = amount s.
Proof.
  intros NL. unfold addSecondLiquid.
  set (s1 := setNLiq (S (nLiq s)) s).
  set (s2 := putLiq tab (nLiq s) (fun j => m j * MASSIN) s1).
  unfold MassSpec.amount.
  change (inSolids (addLiq tab 0 (fun j => - liqC s2 (nLiq s) j) s2)) with (inSolids s).
  rewrite inLiquids_addLiq by (cbn; lia).
  unfold s2 at 1. rewrite inLiquids_putLiq by (cbn; lia).
  assert (L1 : inLiquids s1 = inLiquids s + sum (nlc tab) (fun j => perLiq q j * liqC s (nLiq s) j)) by reflexivity.
  rewrite L1.
  rewrite (sum_ext (nlc tab) (fun j => perLiq q j * - liqC s2 (nLiq s) j) (fun j => - (perLiq q j * (m j * MASSIN)))).
  2:{ intros j Hj. unfold s2. rewrite putLiq_at by auto. ring. }
  rewrite sum_opp.
  rewrite (sum_ext (nlc tab) (fun j => perLiq q j * (m j * MASSIN - liqC s1 (nLiq s) j))
     (fun j => perLiq q j * (m j * MASSIN) + - (perLiq q j * liqC s (nLiq s) j))) by (intros; change (liqC s1) with (liqC s); ring).
  rewrite sum_plus, sum_opp. ring.
Qed.

Lemma addSecondSolid_amount index m inmass s :
  (index < npc tab)%nat -> isPhase tab index = true -> (1 < na tab index)%nat -> (0 < nSol s index)%nat ->
  (hasLiquid s = true -> (0 < nLiq s)%nat) ->
  amount (addSecondSolid tab index m inmass s) = amount s.
Proof.
  intros Hi Pi N NS NL. unfold addSecondSolid. set (ns := nSol s index) in *.
  set (s1 := setNSol (upd (nSol s) index (S ns)) s).
  set (s2 := setSol index ns inmass s1).
  set (s3 := if hasLiquid s2 then s2 else setSol index (ns - 1) (solC s2 index (ns-1)%nat - inmass) s2).
  assert (A3 : amount s3 = amount s + solidAmount tab q s index ns /\ nSol s3 = upd (nSol s) index (S ns) /\
     nLiq s3 = nLiq s /\ hasLiquid s3 = hasLiquid s /\
     (forall c x, (index < c)%nat -> solC s3 c x = solC s c x)).
  { assert (A1 : amount s1 = amount s + solidAmount tab q s index ns).
    { unfold MassSpec.amount. unfold s1. rewrite setNSol_new by auto. fold ns. cbn [sum].
      change (inLiquids (setNSol (upd (nSol s) index (S ns)) s)) with (inLiquids s). ring. }
    assert (A2 : amount s2 = amount s1).
    { unfold MassSpec.amount, s2. rewrite inSolids_setTotal by auto. reflexivity. }
    unfold s3. change (hasLiquid s2) with (hasLiquid s). destruct (hasLiquid s) eqn:HL.
    - rewrite A2, A1. csp; try exact HL. intros c x Hc. cbn. apply upd2_row. lia.
    - csp.
      + unfold MassSpec.amount. rewrite inSolids_setTotal by auto.
        change (inLiquids (setSol index (ns - 1) (solC s2 index (ns-1)%nat - inmass) s2)) with (inLiquids s2).
        change (amount s2 = amount s + solidAmount tab q s index ns). congruence.
      + cbn. exact HL.
      + intros c x Hc. cbn. rewrite !upd2_row by lia. reflexivity. }
  clearbody s3. clear s2 s1. destruct A3 as (A3 & N3 & L3 & H3 & C3).
  match goal with |- context [loop (na tab index) ?f s3] => set (F := f) end.
  assert (P : forall k, (k <= na tab index)%nat ->
    let t := loop k F s3 in
    amount t = amount s + solidAmount tab q s index ns - sum k (fun i => perSol q (index+1+i) * solC s (index+1+i)%nat ns) /\
    nSol t = upd (nSol s) index (S ns) /\ nLiq t = nLiq s /\ hasLiquid t = hasLiquid s /\
    (forall c x, (index + k < c)%nat -> solC t c x = solC s c x)).
  { induction k; intros Hk; cbn [loop].
    - cbn zeta. csp; auto. + rewrite A3. cbn. ring. + intros. apply C3. lia.
    - destruct (IHk ltac:(lia)) as (A & B & C & D & E). clear IHk.
      set (t := loop k F s3) in *. cbn zeta. unfold F.
      set (c := (index+1+k)%nat).
      set (t1 := setSol c ns (m k * inmass) t).
      assert (Rw : componentRow tab index c) by (apply row_in; auto; lia).
      assert (Hc : (c < npc tab)%nat) by (eapply row_lt; eauto).
      assert (NB : nSol t index = S ns) by (rewrite B; unfold upd; rewrite Nat.eqb_refl; auto).
      assert (A1 : amount t1 = amount t + perSol q c * (m k * inmass - solC s c ns)).
      { unfold MassSpec.amount, t1. rewrite (inSolids_setSol tab q Lay t index) by auto.
        rewrite NB. destruct (Nat.ltb_spec ns (S ns)); [|lia].
        rewrite (E c ns) by (unfold c; lia).
        change (inLiquids (setSol c ns (m k * inmass) t)) with (inLiquids t). ring. }
      change (hasLiquid t1) with (hasLiquid t). rewrite D. destruct (hasLiquid s) eqn:HL.
      + csp; auto.
        * unfold MassSpec.amount. rewrite inLiquids_addLiq by (change (nLiq t1) with (nLiq t); rewrite C; auto).
          match goal with |- context [sum (nlc tab) ?f] =>
            rewrite (sum_ext (nlc tab) f (fun j => - (perLiq q j * (solToLiq tab c j * (m k * inmass))))) end.
          2:{ intros j Hj. unfold t1; cbn. rewrite upd2_eq. ring. }
          rewrite sum_opp, (agrees_scal tab q _ _ Agr) by auto.
          change (inSolids (addLiq tab 0 (fun j : nat => - (solToLiq tab c j * solC t1 c ns)) t1)) with (inSolids t1).
          unfold MassSpec.amount in A1, A. cbn [sum]. fold c. lra.
        * intros c' x Hx. unfold t1. cbn. rewrite upd2_row by (unfold c; lia). apply E. lia.
      + csp; auto.
        * unfold MassSpec.amount. rewrite (inSolids_setSol tab q Lay t1 index) by auto.
          change (nSol t1 index) with (nSol t index). rewrite NB.
          destruct (Nat.ltb_spec (ns-1) (S ns)); [|lia].
          match goal with |- context [inLiquids (setSol ?a ?b ?d t1)] =>
            change (inLiquids (setSol a b d t1)) with (inLiquids t1) end.
          unfold MassSpec.amount in A1, A. cbn [sum]. fold c.
          replace (m k * inmass) with (m k * inmass) in * by auto.
          set (X := m k * inmass) in *. set (Y := solC t1 c (ns-1)%nat).
          replace (perSol q c * (Y - X - Y)) with (- (perSol q c * X)) by ring. lra.
        * intros c' x Hx. unfold t1. cbn. rewrite !upd2_row by (unfold c; lia). apply E. lia. }
  destruct (P (na tab index) (le_n _)) as (A & _). rewrite A.
  unfold solidAmount. destruct (Nat.eqb_spec (na tab index) 1); [lia|]. ring.
Qed.

End Q.
End Ops.
