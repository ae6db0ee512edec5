(** Proofs about systems without liquid. *)
From Coq Require Import Reals List Lia Lra Bool Arith.
From Verif Require Import MassModel MassSpec MassProofs MassOps MassDrop.
Open Scope R_scope.

Section Solve.
Variable tab : Tab.
Hypothesis Lay : layout tab.
Variable corr : Corr.
Variable phaseTest : nat -> (nat -> R) -> bool.

(** the rows a phase uses *)
Definition usedRow (i c : nat) : Prop := c = i \/ componentRow tab i c.
Lemma used_disjoint i i' c : (i < npc tab)%nat -> (i' < npc tab)%nat -> isPhase tab i = true -> isPhase tab i' = true ->
  usedRow i c -> usedRow i' c -> i = i'.
Proof.
  intros Hi Hi' Pi Pi' U U'.
  assert (W : forall a b, (a < npc tab)%nat -> (b < npc tab)%nat -> isPhase tab a = true -> isPhase tab b = true ->
     componentRow tab b a -> a = b).
  { intros a b Ha Hb Pa Pb Rw. destruct (na_cases tab Lay a Ha Pa) as [N|N].
    - apply (rows_disjoint tab Lay a b a); auto. left; auto.
    - exfalso. exact (phaseRow_no_component tab Lay a b Ha Hb Pa Pb N Rw). }
  destruct U as [->|U]; destruct U' as [E|U']; auto.
  - subst. symmetry. auto.
  - apply (rows_disjoint tab Lay i i' c); auto.
Qed.

Section Q.
Variable q : Quantity.

Definition taken (s : St) (d : nat -> R) (i : nat) : R :=
  if isPhase tab i && negb (Nat.eqb (nSol s i) 0) then
    if Nat.eqb (na tab i) 1 then perSol q i * d i
    else sum (na tab i) (fun j => perSol q (i+1+j) * d (i+1+j)%nat)
  else 0.

Definition frameSol (s s' : St) : Prop :=
  nSol s' = nSol s /\ nLiq s' = nLiq s /\ liqC s' = liqC s /\ rest s s'.

Lemma frameSol_refl s : frameSol s s.
Proof. unfold frameSol, rest. repeat split. Qed.
Lemma frameSol_trans a b c : frameSol a b -> frameSol b c -> frameSol a c.
Proof. unfold frameSol, rest. intuition congruence. Qed.
Lemma frameSol_setSol s i k v : frameSol s (setSol i k v s).
Proof. unfold frameSol, rest. repeat split. Qed.

Lemma correctPhase_spec d i s : counts tab s -> (i < npc tab)%nat ->
  frameSol s (correctPhase tab d i s) /\
  inSolids tab q (correctPhase tab d i s) = inSolids tab q s - taken s d i /\
  (forall c k, ~ usedRow i c \/ k <> 0%nat -> solC (correctPhase tab d i s) c k = solC s c k).
Proof.
  intros Cn Hi. unfold correctPhase, taken.
  destruct (Nat.eqb_spec (nSol s i) 0) as [E|NE].
  { cbn. rewrite andb_false_r. split; [apply frameSol_refl|]. split; [ring|auto]. }
  destruct (isPhase tab i) eqn:Pi.
  2:{ exfalso. apply NE. destruct Cn as (C1 & _). apply C1. exact Pi. }
  cbn [andb negb]. destruct (na_cases tab Lay i Hi Pi) as [N|N].
  - rewrite N. cbn [Nat.eqb]. split; [apply frameSol_setSol|]. split.
    + rewrite (inSolids_setSol tab q Lay s i) by (auto; left; auto).
      destruct (Nat.ltb_spec 0 (nSol s i)); [|lia]. ring.
    + intros c k H. cbn. destruct (Nat.eq_dec c i) as [->|]; [|now apply upd2_row].
      apply upd2_col. destruct H as [H|]; auto. exfalso. apply H. left; auto.
  - destruct (Nat.eqb_spec (na tab i) 1); [lia|].
    match goal with |- context [loop (na tab i) ?f s] => set (F := f) end.
    assert (P : forall m, (m <= na tab i)%nat ->
      frameSol s (loop m F s) /\
      inSolids tab q (loop m F s) = inSolids tab q s - sum m (fun j => perSol q (i+1+j) * d (i+1+j)%nat) /\
      (forall c k, ~ usedRow i c \/ k <> 0%nat -> solC (loop m F s) c k = solC s c k)).
    { induction m; intros Hm.
      - cbn. split; [apply frameSol_refl|]. split; [ring|auto].
      - destruct (IHm ltac:(lia)) as (A & B & C). rewrite loop_S. set (t := loop m F s) in *.
        unfold F. set (t1 := setSol i 0 (solC t i 0 - d (i+1+m)%nat) t).
        split; [|split].
        + eapply frameSol_trans; [exact A|]. eapply frameSol_trans; apply frameSol_setSol.
        + assert (Rw : componentRow tab i (i+1+m)) by (apply row_in; auto; lia).
          rewrite (inSolids_setSol tab q Lay _ i) by auto.
          assert (T1 : inSolids tab q t1 = inSolids tab q t) by (apply inSolids_setTotal; auto).
          rewrite T1, B.
          change (nSol t1) with (nSol t). destruct A as (A & _). rewrite A.
          destruct (Nat.ltb_spec 0 (nSol s i)); [|lia].
          change (solC t1) with (upd2 (solC t) i 0 (solC t i 0 - d (i+1+m)%nat)).
          rewrite upd2_row by lia. cbn [sum]. ring.
        + intros c k H. cbn.
          assert (X : c <> (i+1+m)%nat \/ k <> 0%nat).
          { destruct H as [H|]; auto. left. intros ->. apply H. right. apply row_in; auto. }
          assert (Y : c <> i \/ k <> 0%nat).
          { destruct H as [H|]; auto. left. intros ->. apply H. left; auto. }
          destruct X as [X|X].
          * rewrite upd2_row by auto. destruct Y; [rewrite upd2_row by auto|rewrite upd2_col by auto]; apply C; auto.
          * rewrite !upd2_col by auto. apply C; auto. }
    destruct (P (na tab i) (le_n _)) as (A & B & C). auto.
Qed.

Lemma counts_frame s s' : nSol s' = nSol s -> counts tab s -> counts tab s'.
Proof. unfold counts. intros ->. auto. Qed.

Lemma taken_frame s s' d i : nSol s' = nSol s -> taken s' d i = taken s d i.
Proof. unfold taken. intros ->. auto. Qed.

Lemma correctAll d s : counts tab s -> forall n, (n <= npc tab)%nat ->
  frameSol s (loop n (correctPhase tab d) s) /\
  inSolids tab q (loop n (correctPhase tab d) s) = inSolids tab q s - sum n (taken s d) /\
  (forall c k, k <> 0%nat -> solC (loop n (correctPhase tab d) s) c k = solC s c k) /\
  (forall i c k, (i < npc tab)%nat -> isPhase tab i = true -> nSol s i = 0%nat -> usedRow i c ->
      solC (loop n (correctPhase tab d) s) c k = solC s c k).
Proof.
  intros Cn. induction n; intros Hn.
  - cbn. split; [apply frameSol_refl|]. split; [ring|auto].
  - destruct (IHn ltac:(lia)) as (A & B & C & D). rewrite loop_S. set (t := loop n _ s) in *.
    assert (Ct : counts tab t) by (apply (counts_frame s); [apply A|auto]).
    destruct (correctPhase_spec d n t Ct ltac:(lia)) as (A' & B' & C').
    split; [eapply frameSol_trans; eauto|]. split; [|split].
    + rewrite B', B. rewrite (taken_frame s t) by apply A. cbn [sum]. ring.
    + intros c k Hk. rewrite C' by auto. auto.
    + intros i c k Hi Pi Ni Bc. destruct (Nat.eq_dec (nSol t n) 0) as [E|E].
      * unfold correctPhase. rewrite E. cbn [Nat.eqb]. apply (D i); auto.
      * rewrite C'; [apply (D i); auto|]. left. intros Bn.
        destruct (isPhase tab n) eqn:Pn; [|apply E; destruct Ct as (C1 & _); apply C1; exact Pn].
        assert (Hn' : (n < npc tab)%nat) by lia.
        assert (Ne : i <> n) by (intros ->; apply E; destruct A as (A & _); rewrite A; auto).
        apply Ne. apply (used_disjoint i n c); auto.
Qed.

Lemma drawn_taken s d : sum (npc tab) (taken s d) = drawn tab q s d.
Proof. reflexivity. Qed.

(** the solver's effect *)
Lemma addOrDrop_spec delta s s' r : counts tab s -> addOrDropLiquid tab corr phaseTest delta s = (s', r) ->
  frameSol s s' /\
  (r = false -> s' = s) /\
  (r = true -> inSolids tab q s' = inSolids tab q s - drawn tab q s (corr s delta)) /\
  (forall i c k, (i < npc tab)%nat -> isPhase tab i = true -> nSol s i = 0%nat -> usedRow i c ->
      solC s' c k = solC s c k).
Proof.
  intros Cn. unfold addOrDropLiquid. destruct (allb (npc tab) (fun i => Nat.eqb (nSol s i) 0)).
  { intros E. inversion E; subst. split; [apply frameSol_refl|]. split; auto. split; [discriminate|auto]. }
  set (t := loop (npc tab) (correctPhase tab (corr s delta)) s).
  destruct (correctAll (corr s delta) s Cn (npc tab) (le_n _)) as (A & B & _ & D). fold t in A, B, D.
  destruct (allb (npc tab) (phaseOk tab phaseTest s t)); intros E; inversion E; subst.
  - split; auto. split; [discriminate|]. split; auto.
  - split; [apply frameSol_refl|]. split; auto. split; [discriminate|auto].
Qed.

Lemma inLiquids_frame s s' : frameSol s s' -> inLiquids tab q s' = inLiquids tab q s.
Proof. intros (A & B & C & D). now apply inLiquids_same. Qed.

End Q.

(** *** adding a solution phase, with any number of halvings *)
Lemma placeComponents index mSol s : (index < npc tab)%nat -> isPhase tab index = true -> (1 < na tab index)%nat ->
  nSol s index = 0%nat -> forall q m, (m <= na tab index)%nat ->
  let t := loop m (fun i s => setSol (index+1+i) 0 (mSol i * solC s index 0) s) s in
  frameSol s t /\ inSolids tab q t = inSolids tab q s /\
  solC t index 0%nat = solC s index 0%nat /\
  (forall i, (i < m)%nat -> solC t (index+1+i)%nat 0%nat = mSol i * solC s index 0%nat).
Proof.
  intros Hi Pi N N0 q. induction m; intros Hm; cbn zeta in *.
  - cbn. split; [apply frameSol_refl|]. repeat split. intros; lia.
  - destruct (IHm ltac:(lia)) as (A & B & C & D). rewrite loop_S. set (t := loop m _ s) in *.
    split; [|split; [|split]].
    + eapply frameSol_trans; [exact A|apply frameSol_setSol].
    + rewrite (inSolids_setSol tab q Lay t index) by (auto; apply row_in; auto; lia).
      destruct A as (A & _). rewrite A, N0. cbn [Nat.ltb Nat.leb]. rewrite B. ring.
    + cbn. rewrite upd2_row by lia. exact C.
    + intros i Hi'. cbn. destruct (Nat.eq_dec i m) as [->|Ne].
      * rewrite upd2_eq, C. reflexivity.
      * rewrite upd2_row by lia. apply D. lia.
Qed.

Lemma addSolidNoLiquid_solution o spinodeTest index mSol : (o < nc tab)%nat ->
  (forall s, spinodeTest s = true) ->
  (index < npc tab)%nat -> isPhase tab index = true -> (1 < na tab index)%nat ->
  (forall s delta, exactSolve tab s delta (corr s delta)) ->
  forall fuel inmass s s', counts tab s -> nSol s index = 0%nat ->
  addSolidNoLiquid tab corr phaseTest fuel spinodeTest index mSol inmass s = Some s' ->
  amount tab (oxide tab o) s' = amount tab (oxide tab o) s /\ bulk s' = bulk s.
Proof.
  intros Ho Sp Hi Pi N Ex. induction fuel; intros inmass s s' Cn N0 H; [discriminate|].
  cbn [addSolidNoLiquid] in H. destruct (Nat.eqb_spec (na tab index) 1); [lia|].
  set (q := oxide tab o) in *.
  set (s1 := setSol index 0 inmass s) in *.
  assert (F1 : frameSol s s1) by apply frameSol_setSol.
  assert (I1 : inSolids tab q s1 = inSolids tab q s) by (apply inSolids_setTotal; auto).
  destruct (placeComponents index mSol s1 Hi Pi N N0 q (na tab index) (le_n _)) as (F2 & I2 & T2 & C2).
  set (s2 := loop (na tab index) (fun i s => setSol (index+1+i) 0 (mSol i * solC s index 0) s) s1) in *.
  cbn zeta in *.
  set (delta := fun o => sum (na tab index) (fun i => solToOx tab (index+1+i) o * solC s2 (index+1+i)%nat 0%nat)) in *.
  assert (F02 : frameSol s s2) by exact (frameSol_trans _ _ _ F1 F2).
  assert (Cn2 : counts tab s2) by (apply (counts_frame s); [apply F02|auto]).
  destruct (addOrDropLiquid tab corr phaseTest delta s2) as [s3 r] eqn:AD.
  destruct (addOrDrop_spec q delta s2 s3 r Cn2 AD) as (F3 & R0 & R1 & K).
  assert (F03 : frameSol s s3) by exact (frameSol_trans _ _ _ F02 F3).
  rewrite Sp in H. rewrite andb_true_r in H. destruct r.
  - inversion H; subst s'. clear H. split.
    2:{ cbn. apply F03. }
    unfold amount. rewrite (setNSol_new tab Lay q s3 index) by auto.
    change (inLiquids tab q (setNSol (upd (nSol s3) index 1%nat) s3)) with (inLiquids tab q s3).
    rewrite (inLiquids_frame q s s3 F03). rewrite R1 by auto. rewrite I2, I1.
    pose proof (Ex s2 delta o Ho) as E1. fold q in E1. rewrite E1. destruct F03 as (F03 & _). rewrite F03, N0. cbn [sum].
    unfold solidAmount. destruct (Nat.eqb_spec (na tab index) 1); [lia|].
    rewrite (sum_ext (na tab index) (fun j => perSol q (index+1+j) * solC s3 (index+1+j)%nat 0%nat)
      (fun i => solToOx tab (index+1+i) o * solC s2 (index+1+i)%nat 0%nat)).
    + unfold delta. ring.
    + intros j Hj. rewrite (K index); auto.
      * destruct F02 as (F02 & _). rewrite F02. auto.
      * right. apply row_in; auto.
  - specialize (R0 eq_refl). subst s3. destruct (Rlt_dec (inmass / 2) (10 * DBL_EPSILON)); [discriminate|].
    destruct (IHfuel (inmass / 2) s2 s') as [A B]; auto.
    { destruct F02 as (F02 & _). rewrite F02. auto. }
    rewrite A, B. split; [|apply F02]. unfold amount. rewrite I2, I1, (inLiquids_frame q s s2 F02). reflexivity.
Qed.

(** *** adding liquid to solids *)
Lemma addLiquid_spec o mLiq : (o < nc tab)%nat ->
  (forall s delta, exactSolve tab s delta (corr s delta)) ->
  forall fuel inmass s s', counts tab s ->
  addLiquid tab corr phaseTest fuel mLiq inmass s = Some s' ->
  amount tab (oxide tab o) s' = inSolids tab (oxide tab o) s /\ bulk s' = bulk s /\ hasLiquid s' = true /\ nLiq s' = 1%nat.
Proof.
  intros Ho Ex. induction fuel; intros inmass s s' Cn H; [discriminate|].
  cbn [addLiquid] in H. set (q := oxide tab o) in *.
  set (s1 := putLiq tab 0 (fun j => mLiq j * inmass) (setHas true s)) in *.
  set (delta := fun o => sum (nlc tab) (fun j => liqToOx tab j o * liqC s1 0 j)) in *.
  assert (Cn1 : counts tab s1) by (apply (counts_frame s); auto).
  assert (I1 : inSolids tab q s1 = inSolids tab q s) by (apply inSolids_same; auto).
  destruct (addOrDropLiquid tab corr phaseTest delta s1) as [s2 r] eqn:AD.
  destruct (addOrDrop_spec q delta s1 s2 r Cn1 AD) as (F2 & R0 & R1 & K).
  destruct r.
  - inversion H; subst s'. clear H. repeat split.
    + unfold amount. change (inSolids tab q (setNLiq 1 s2)) with (inSolids tab q s2). rewrite R1 by auto.
      pose proof (Ex s1 delta o Ho) as E1. fold q in E1. rewrite E1, I1. unfold inLiquids. cbn [nLiq setNLiq sum].
      assert (inLiquid tab q (setNLiq 1 s2) 0 = delta o).
      { unfold inLiquid. change (liqC (setNLiq 1 s2)) with (liqC s2). destruct F2 as (_ & _ & F2 & _). rewrite F2.
        unfold delta. reflexivity. }
      rewrite H. ring.
    + cbn. destruct F2 as (_ & _ & _ & F2). apply F2.
    + cbn. destruct F2 as (_ & _ & _ & (F2 & _)). rewrite F2. reflexivity.
  - specialize (R0 eq_refl). subst s2. destruct (Rlt_dec (inmass / 2) (10 * DBL_EPSILON)); [discriminate|].
    destruct (IHfuel (inmass / 2) s1 s') as (A & B & C & D); auto.
Qed.

(** *** the last liquid *)
Lemma dropLastLiquid_spec o s : (o < nc tab)%nat -> counts tab s -> nLiq s = 1%nat ->
  let s1 := putLiq tab 0 (fun _ => 0) (setHas false s) in
  let delta := fun o => - sum (nlc tab) (fun j => liqToOx tab j o * liqC s 0 j) in
  exactSolve tab s1 delta (corr s1 delta) ->
  snd (addOrDropLiquid tab corr phaseTest delta s1) = true ->
  amount tab (oxide tab o) (dropLastLiquid tab corr phaseTest s) = amount tab (oxide tab o) s /\
  bulk (dropLastLiquid tab corr phaseTest s) = bulk s.
Proof.
  intros Ho Cn NL s1 delta Ex Ok. unfold dropLastLiquid. fold s1. fold delta.
  set (q := oxide tab o).
  assert (Cn1 : counts tab s1) by (apply (counts_frame s); auto).
  assert (I1 : inSolids tab q s1 = inSolids tab q s) by (apply inSolids_same; auto).
  destruct (addOrDropLiquid tab corr phaseTest delta s1) as [s2 r] eqn:AD. cbn in Ok. subst r.
  destruct (addOrDrop_spec q delta s1 s2 true Cn1 AD) as (F2 & R0 & R1 & K). cbn [fst].
  split.
  - unfold amount. rewrite R1 by auto. pose proof (Ex o Ho) as E1. fold q in E1. rewrite E1, I1.
    rewrite (inLiquids_frame q s1 s2 F2). unfold inLiquids. change (nLiq s1) with (nLiq s). rewrite NL. cbn [sum].
    assert (inLiquid tab q s1 0 = 0).
    { unfold inLiquid. apply sum_0. intros j Hj. unfold s1. rewrite putLiq_at by auto. ring. }
    rewrite H. unfold delta, inLiquid. cbn. ring.
  - destruct F2 as (_ & _ & _ & F2). apply F2.
Qed.

End Solve.
