(** C17-C20 in full: what remains true without liquid, what is false, and
    concrete cases for the theorems of MassProps.v. *)
From Coq Require Import Reals List Lia Lra Bool Arith.
From Verif Require Import MassModel MassSpec MassProofs MassOps MassDrop MassSolve MassFrac MassProps.
Open Scope R_scope.

(** ** Without liquid: if the numerical solver finds exact corrections and
    (for a solution) the separate unmixing test accepts every attempt, the
    oxides are conserved. *)
Theorem C17_no_liquid_partial : forall tab corr phaseTest fuel spinodeTest index mSol inmass s s' o,
  layout tab -> (o < nc tab)%nat -> (forall s delta, exactSolve tab s delta (corr s delta)) ->
  counts tab s -> newPhase tab s index -> (1 < na tab index)%nat -> (forall s, spinodeTest s = true) ->
  addSolidNoLiquid tab corr phaseTest fuel spinodeTest index mSol inmass s = Some s' ->
  amount tab (oxide tab o) s' = amount tab (oxide tab o) s /\ bulk s' = bulk s.
Proof.
  intros tab corr phaseTest fuel spinodeTest index mSol inmass s s' o Lay Ho Ex Cn (Hi & Pi & N) Na Sp E.
  eapply (addSolidNoLiquid_solution tab Lay); eauto.
Qed.
Theorem C17_add_liquid_partial : forall tab corr phaseTest fuel mLiq inmass s s' o,
  layout tab -> (o < nc tab)%nat -> (forall s delta, exactSolve tab s delta (corr s delta)) -> counts tab s ->
  (forall nl j, liqC s nl j = 0) ->
  addLiquid tab corr phaseTest fuel mLiq inmass s = Some s' ->
  amount tab (oxide tab o) s' = amount tab (oxide tab o) s /\ bulk s' = bulk s /\ hasLiquid s' = true /\ nLiq s' = 1%nat.
Proof.
  intros tab corr phaseTest fuel mLiq inmass s s' o Lay Ho Ex Cn Z E.
  destruct (addLiquid_spec tab Lay corr phaseTest o mLiq Ho Ex fuel inmass s s' Cn E) as (A & B).
  split; [|exact B]. rewrite A. unfold amount, inLiquids.
  rewrite (sum_0 (nLiq s)); [ring|]. intros nl _. apply sum_0. intros j _. rewrite Z. ring.
Qed.
Theorem C18_last_liquid_partial : forall tab corr phaseTest s o, layout tab -> (o < nc tab)%nat -> counts tab s ->
  nLiq s = 1%nat ->
  let s1 := putLiq tab 0 (fun _ => 0) (setHas false s) in
  let delta := fun o => - sum (nlc tab) (fun j => liqToOx tab j o * liqC s 0 j) in
  exactSolve tab s1 delta (corr s1 delta) -> snd (addOrDropLiquid tab corr phaseTest delta s1) = true ->
  amount tab (oxide tab o) (dropLastLiquid tab corr phaseTest s) = amount tab (oxide tab o) s /\
  bulk (dropLastLiquid tab corr phaseTest s) = bulk s.
Proof. intros tab corr phaseTest s o Lay Ho Cn N. now apply dropLastLiquid_spec. Qed.

Ltac dlt := match goal with |- context [Rlt_dec ?a ?b] => destruct (Rlt_dec a b) end.

(** ** C17 is false without liquid: the answer of the solver is not looked at
    for a phase with one component. A solid holding 5e-6 mol; its polymorph,
    saturated, is added with 1e-5 mol, which the first cannot supply. The
    attempt to take it is undone, but the polymorph stays. *)
Lemma addSolidNoLiquid_S tab corr phaseTest f spinodeTest index mSol inmass s :
  addSolidNoLiquid tab corr phaseTest (S f) spinodeTest index mSol inmass s =
  let s := setSol index 0 inmass s in
  let '(s, acceptable) :=
    if Nat.eqb (na tab index) 1
    then (fst (addOrDropLiquid tab corr phaseTest (fun o => solToOx tab index o * solC s index 0%nat) s), true)
    else
      let s := loop (na tab index) (fun i s => setSol (index+1+i) 0 (mSol i * solC s index 0%nat) s) s in
      addOrDropLiquid tab corr phaseTest (fun o => sum (na tab index)
          (fun i => solToOx tab (index+1+i) o * solC s (index+1+i)%nat 0%nat)) s in
  if acceptable && spinodeTest s then Some (setNSol (upd (nSol s) index 1%nat) s)
  else if Rlt_dec (inmass / 2) (10 * DBL_EPSILON) then None
  else addSolidNoLiquid tab corr phaseTest f spinodeTest index mSol (inmass / 2) s.
Proof. reflexivity. Qed.
Definition polyTab : Tab :=
  mkTab 1 2 1 (fun _ => true) (fun _ => 1%nat) (fun _ _ => 1) (fun _ _ => 1) (fun _ _ => 1) (fun _ _ => 1)
        (fun _ => 1) (fun _ => 1) (fun _ => 0) (fun _ => 0) (fun _ => false).
Definition polySt : St :=
  mkSt false 1 (fun _ _ => 0) (fun i => match i with O => 1%nat | _ => O end)
    (fun i ns => match i with O => 5 / 1000000 | _ => 0 end) (fun _ => 5 / 1000000)
    (fun _ _ => 0) (fun _ => 0) 0 0 false.
Theorem C17_refuted_without_liquid : exists tab s index,
  layout tab /\ counts tab s /\ newPhase tab s index /\ balanced tab s /\
  forall corr phaseTest spinodeTest, (forall s delta, exactSolve tab s delta (corr s delta)) ->
    (forall s, spinodeTest s = true) ->
    exists s', addSolidNoLiquid tab corr phaseTest 64 spinodeTest index (fun _ => 0) MASSIN s = Some s' /\
      amount tab (oxide tab 0) s' = amount tab (oxide tab 0) s + MASSIN /\ bulk s' = bulk s.
Proof.
  exists polyTab, polySt, 1%nat.
  split; [|split; [|split; [|split]]].
  - intros i Hi Pi. cbn. split; [lia|]. intros; lia.
  - split; [|split]; cbn; intros i H; try discriminate; destruct i; auto; lia.
  - split; [cbn; lia|]. split; reflexivity.
  - intros o Ho. cbn in Ho. assert (o = O) by lia. subst. unfold amount, inSolids, inLiquids, inLiquid, solidAmount. cbn. lra.
  - intros corr phaseTest spinodeTest Ex Sp.
    set (s1 := setSol 1 0 MASSIN polySt).
    set (delta := fun o => solToOx polyTab 1 o * solC s1 1 0%nat).
    assert (D : corr s1 delta 0%nat = MASSIN).
    { pose proof (Ex s1 delta 0%nat ltac:(cbn; lia)) as E.
      assert (D0 : delta 0%nat = MASSIN) by (unfold delta, s1; cbn; unfold upd2; cbn; lra).
      rewrite D0 in E. unfold drawn in E. cbn -[MASSIN] in E. lra. }
    assert (E : addOrDropLiquid polyTab corr phaseTest delta s1 = (s1, false)).
    { unfold addOrDropLiquid. cbn [npc polyTab allb]. cbn [nSol s1 setSol setSolC polySt Nat.eqb andb].
      match goal with |- context [loop 2 ?f s1] => set (s2 := loop 2 f s1) end.
      assert (P : phaseOk polyTab phaseTest s1 s2 0 = false).
      { unfold phaseOk. cbn [nSol s1 setSol setSolC polySt Nat.eqb].
        assert (V : solC s2 0 0%nat = 5 / 1000000 - MASSIN).
        { unfold s2. cbn [loop]. unfold correctPhase. cbn. rewrite D. unfold upd2. cbn. lra. }
        rewrite V. destruct (Rle_dec (5 / 1000000 - MASSIN) 0) as [|Nn]; [reflexivity|]. exfalso. apply Nn. unfold MASSIN. lra. }
      rewrite P. cbn. reflexivity. }
    exists (setNSol (upd (nSol s1) 1 1%nat) s1). split; [|split].
    + rewrite (addSolidNoLiquid_S polyTab corr phaseTest 63). cbv zeta. fold s1.
      change (Nat.eqb (na polyTab 1) 1) with true. cbv iota beta. fold delta. rewrite E. cbn [fst]. rewrite Sp. reflexivity.
    + unfold amount, inSolids, inLiquids, inLiquid, solidAmount. cbn. unfold upd, upd2. cbn. lra.
    + reflexivity.
Qed.

(** ** C18 is false with three liquids: if the first is exhausted, the second
    is added to it and, since it is not cleared, the third is added to the
    second. *)
Definition liqTab : Tab :=
  mkTab 1 0 1 (fun _ => false) (fun _ => 1%nat) (fun _ _ => 1) (fun _ _ => 1) (fun _ _ => 1) (fun _ _ => 1)
        (fun _ => 1) (fun _ => 1) (fun _ => 0) (fun _ => 0) (fun _ => false).
Definition threeLiquids : St :=
  mkSt true 3 (fun nl j => match nl with O => 0 | 1%nat => 1 | 2%nat => 2 | _ => 0 end) (fun _ => O)
    (fun _ _ => 0) (fun _ => 3) (fun _ _ => 0) (fun _ => 0) 0 0 false.
Theorem C18_refuted_three_liquids : exists tab s,
  layout tab /\ counts tab s /\ hasLiquid s = true /\ nLiq s = 3%nat /\ balanced tab s /\ fo2On s = false /\
  forall redox, amount tab (component tab 0) (dropLiquids tab redox s) = amount tab (component tab 0) s + 1.
Proof.
  exists liqTab, threeLiquids.
  split; [intros i Hi; cbn in Hi; lia|]. split; [split; [|split]; intros; cbn; lia|].
  split; [reflexivity|]. split; [reflexivity|]. split.
  { intros o Ho. cbn in Ho. assert (o = O) by lia. subst. unfold amount, inSolids, inLiquids, inLiquid. cbn. lra. }
  split; [reflexivity|]. intros redox. unfold dropLiquids. cbn [hasLiquid threeLiquids nLiq andb Nat.ltb Nat.leb loop fo2On].
  rewrite andb_false_r.
  assert (E0 : dropLiquid liqTab 0 threeLiquids =
     mkSt true 2 (fun nl j => liqC (loop 2 (fun d s => addLiq liqTab (0+d) (liqC s (0+1+d)%nat) s) threeLiquids) nl j)
      (fun _ => O) (fun _ _ => 0) (fun _ => 3) (fun _ _ => 0) (fun _ => 0) 0 0 false).
  { unfold dropLiquid. cbn [nLiq threeLiquids Nat.ltb Nat.leb negb].
    assert (M : liqMass liqTab threeLiquids 0 = 0) by (unfold liqMass; cbn; lra).
    rewrite M. destruct (Rlt_dec 0 MASSOUT) as [_|N]; [|exfalso; apply N; unfold MASSOUT; lra]. reflexivity. }
  rewrite E0. set (u := mkSt _ _ _ _ _ _ _ _ _ _ _).
  assert (E1 : dropLiquid liqTab 1 u = u).
  { unfold dropLiquid. cbn [nLiq u Nat.ltb Nat.leb negb].
    assert (M : liqMass liqTab u 1 = 3) by (unfold liqMass, u; cbn; lra).
    rewrite M. destruct (Rlt_dec 3 MASSOUT) as [Y|]; [exfalso; unfold MASSOUT in Y; lra|reflexivity]. }
  rewrite E1.
  assert (E2 : dropLiquid liqTab 2 u = u) by (unfold dropLiquid; reflexivity).
  rewrite E2. unfold amount, inSolids, inLiquids, inLiquid, u. cbn. lra.
Qed.

(** C18 is false when the last liquid disappears: its water (say) is lost if no
    solid present contains it, whatever the solver returns. *)
Definition dryTab : Tab :=
  mkTab 2 1 2 (fun _ => true) (fun _ => 1%nat)
    (fun _ j => if Nat.eqb j 0 then 1 else 0) (fun _ o => if Nat.eqb o 0 then 1 else 0)
    (fun j o => if Nat.eqb j o then 1 else 0) (fun o j => if Nat.eqb o j then 1 else 0)
    (fun _ => 1) (fun _ => 1) (fun _ => 0) (fun _ => 0) (fun _ => false).
Definition lastLiquid : St :=
  mkSt true 1 (fun nl j => / 1000000000) (fun _ => 1%nat) (fun _ _ => 1)
    (fun o => match o with O => 1 + / 1000000000 | _ => / 1000000000 end) (fun _ _ => 0) (fun _ => 0) 0 0 false.
Theorem C18_refuted_last_liquid : exists tab s o,
  layout tab /\ invertible tab /\ (forall o, (o < nc tab)%nat -> agrees tab (oxide tab o)) /\
  hasLiquid s = true /\ nLiq s = 1%nat /\ balanced tab s /\ liqMass tab s 0 < MASSOUT /\ (o < nc tab)%nat /\
  0 < amount tab (oxide tab o) s /\
  forall corr phaseTest, amount tab (oxide tab o) (dropLastLiquid tab corr phaseTest s) = 0 /\
                         bulk (dropLastLiquid tab corr phaseTest s) = bulk s.
Proof.
  exists dryTab, lastLiquid, 1%nat.
  split; [intros i Hi Pi; cbn; split; [lia|intros; lia]|].
  split. { intros m o Ho. cbn in Ho. destruct o as [|[|]]; [| |lia]; cbn; ring. }
  split. { intros o Ho c Hc. cbn in Ho. destruct o as [|[|]]; [| |lia]; cbn; ring. }
  split; [reflexivity|]. split; [reflexivity|]. split.
  { intros o Ho. cbn in Ho. destruct o as [|[|]]; [| |lia]; unfold amount, inSolids, inLiquids, inLiquid, solidAmount; cbn; lra. }
  split; [unfold liqMass, MASSOUT; cbn; lra|]. split; [cbn; lia|].
  split; [unfold amount, inSolids, inLiquids, inLiquid, solidAmount; cbn; lra|].
  intros corr phaseTest.
  assert (F : forall n c i, let t := loop n (correctPhase dryTab c) i in nLiq t = nLiq i /\ liqC t = liqC i /\ bulk t = bulk i).
  { induction n; intros c i; cbn zeta; [auto|]. rewrite loop_S. destruct (IHn c i) as (A & B & C). cbn zeta in *.
    set (t := loop n _ i) in *. unfold correctPhase. destruct (Nat.eqb (nSol t n) 0); [auto|]. cbn [na dryTab Nat.eqb]. auto. }
  set (s1 := putLiq dryTab 0 (fun _ => 0) (setHas false lastLiquid)).
  assert (K : forall t, nLiq t = nLiq s1 -> liqC t = liqC s1 -> bulk t = bulk s1 ->
     amount dryTab (oxide dryTab 1) t = 0 /\ bulk t = bulk lastLiquid).
  { intros t T1 T2 T3. split; [|exact T3]. unfold amount, inSolids, inLiquids, inLiquid, solidAmount.
    rewrite T1, T2. cbn. rewrite (sum_0 (nSol t 0)) by (intros; ring). ring. }
  unfold dropLastLiquid, addOrDropLiquid. cbv zeta. fold s1.
  destruct (allb _ _); [apply K; reflexivity|]. destruct (allb _ _); [|apply K; reflexivity].
  cbn [fst]. apply K; apply F.
Qed.

(** ** C19 is false when a trace oxide is cleared: a component made of two
    oxides disappears, and with it an oxide that the bulk keeps. *)
Definition traceTab : Tab :=
  mkTab 2 0 2 (fun _ => false) (fun _ => 1%nat) (fun _ _ => 0) (fun _ _ => 0)
    (fun j o => match j, o with O, O => 1 | 1%nat, _ => 1 | _, _ => 0 end)
    (fun o j => match o, j with O, O => 1 | 1%nat, O => -1 | 1%nat, 1%nat => 1 | _, _ => 0 end)
    (fun _ => 1) (fun _ => 1) (fun _ => 0) (fun _ => 0) (fun _ => false).
Definition traceSt : St :=
  mkSt true 1 (fun nl j => match j with O => 1 | 1%nat => / 100000000 | _ => 0 end) (fun _ => O) (fun _ _ => 0)
    (fun o => match o with O => 1 + / 100000000 | 1%nat => / 100000000 | _ => 0 end) (fun _ _ => 0) (fun _ => 0) 0 0 false.
Theorem C19_refuted_traces : exists tab s part,
  layout tab /\ invertible tab /\ balanced tab s /\
  let t := clearTraces tab (fracSolids tab part s) in
  fracAmount tab (oxide tab 0) (fun _ => O) t = fracAmount tab (oxide tab 0) (fun _ => O) s /\
  bulk t 0%nat = bulk s 0%nat /\ amount tab (oxide tab 0) t < amount tab (oxide tab 0) s.
Proof.
  exists traceTab, traceSt, (fun _ => true).
  split; [intros i Hi; cbn in Hi; lia|].
  split. { intros m o Ho. cbn in Ho. destruct o as [|[|]]; [| |lia]; cbn; ring. }
  split. { intros o Ho. cbn in Ho. destruct o as [|[|]]; [| |lia]; unfold amount, inSolids, inLiquids, inLiquid; cbn; lra. }
  cbv zeta. change (fracSolids traceTab (fun _ => true) traceSt) with traceSt.
  unfold clearTraces. cbn [nc traceTab loop].
  assert (E0 : clearOxide traceTab 0 traceSt = traceSt).
  { unfold clearOxide. cbn [bulk traceSt]. destruct (Req_EM_T _ _); [reflexivity|].
    destruct (Rlt_dec _ _) as [Y|]; [unfold MASSOUT in Y; lra|reflexivity]. }
  rewrite E0.
  assert (E1 : clearOxide traceTab 1 traceSt =
     setLiqC (fun nl j => if Nat.ltb nl 1 && Nat.ltb j 2
                          then if Req_EM_T (liqToOx traceTab j 1) 0 then liqC traceSt nl j else 0 else liqC traceSt nl j)
       (setBulk (upd (bulk traceSt) 1 0) traceSt)).
  { unfold clearOxide. cbn [bulk traceSt]. destruct (Req_EM_T (/ 100000000) 0) as [Y|]; [lra|].
    destruct (Rlt_dec (/ 100000000) MASSOUT) as [_|Nn]; [|exfalso; apply Nn; unfold MASSOUT; lra]. reflexivity. }
  rewrite E1. split; [reflexivity|]. split; [reflexivity|].
  unfold amount, inSolids, inLiquids, inLiquid. cbn.
  destruct (Req_EM_T 0 0) as [_|]; [|lra]. destruct (Req_EM_T 1 0); [lra|]. lra.
Qed.

(** ** C20 is false for the recorded phase total: a solution assimilated into a
    system without liquid gets its components but not its total. *)
Definition solnTab : Tab :=
  mkTab 2 3 2 (fun i => Nat.eqb i 0) (fun i => if Nat.eqb i 0 then 2%nat else 1%nat)
    (fun c j => if Nat.eqb c (j+1) then 1 else 0) (fun c o => if Nat.eqb c (o+1) then 1 else 0)
    (fun j o => if Nat.eqb j o then 1 else 0) (fun o j => if Nat.eqb o j then 1 else 0)
    (fun _ => 1) (fun _ => 1) (fun _ => 0) (fun _ => 0) (fun _ => false).
Definition noLiquid : St :=
  mkSt false 1 (fun _ _ => 0) (fun i => if Nat.eqb i 0 then 1%nat else O) (fun c ns => if Nat.eqb c 0 then 2 else 1)
    (fun _ => 1) (fun _ _ => 0) (fun _ => 0) 0 0 false.
Definition oneAssimilant : Assim :=
  mkAssim (fun i => if Nat.eqb i 0 then 1%nat else O) 0 (fun c ns => if Nat.eqb c 0 then 2 else 1) (fun _ _ => 0).
(** the total of an instance is the sum of its components *)
Definition totalled (tab : Tab) (s : St) (i ns : nat) : Prop :=
  solC s i ns = sum (na tab i) (fun j => solC s (i+1+j)%nat ns).
Theorem C20_refuted_total : exists tab a s i,
  layout tab /\ (forall o, (o < nc tab)%nat -> agrees tab (oxide tab o)) /\ hasLiquid s = false /\ balanced tab s /\
  emptyAbsent tab s /\ (1 < na tab i)%nat /\ nSol s i = 1%nat /\ totalled tab s i 0 /\
  ~ totalled tab (assimilate tab a 1 s) i 0.
Proof.
  exists solnTab, oneAssimilant, noLiquid, 0%nat.
  split. { intros i Hi Pi. cbn in Pi |- *. destruct (Nat.eqb_spec i 0); [subst|discriminate]. split; [lia|]. intros _. split; [lia|].
    intros j Hj. destruct (Nat.eqb_spec (0 + j) 0); [lia|reflexivity]. }
  split. { intros o Ho c Hc. cbn in Ho. cbn [npc solnTab] in Hc. destruct o as [|[|]]; [| |lia]; destruct c as [|[|[|]]]; try lia; cbn; ring. }
  split; [reflexivity|]. split.
  { intros o Ho. cbn in Ho. destruct o as [|[|]]; [| |lia]; unfold amount, inSolids, inLiquids, inLiquid, solidAmount; cbn; lra. }
  split. { intros i c Hi Pi N. cbn in Pi, N. rewrite Pi in N. discriminate. }
  split; [cbn; lia|]. split; [reflexivity|]. split; [unfold totalled; cbn; lra|].
  unfold totalled. cbn. unfold upd2. cbn. lra.
Qed.

(** ** Concrete cases for C41-C45: a small table with a pure phase, a solution
    and two liquid components made of two oxides. *)
Definition exTab : Tab :=
  mkTab 2 4 2 (fun i => Nat.ltb i 2) (fun i => if Nat.eqb i 1 then 2%nat else 1%nat)
    (fun c j => match c, j with 0%nat, 1%nat => 1 | 2%nat, O => 1 | 3%nat, O => 1 | 3%nat, 1%nat => 1 | _, _ => 0 end)
    (fun c o => match c, o with 0%nat, O => 1 | 0%nat, 1%nat => 1 | 2%nat, O => 1 | 3%nat, O => 2 | 3%nat, 1%nat => 1 | _, _ => 0 end)
    (fun j o => match j, o with O, O => 1 | 1%nat, O => 1 | 1%nat, 1%nat => 1 | _, _ => 0 end)
    (fun o j => match o, j with O, O => 1 | 1%nat, O => -1 | 1%nat, 1%nat => 1 | _, _ => 0 end)
    (fun _ => 1) (fun _ => 1) (fun _ => 0) (fun _ => 0) (fun _ => false).
Definition exSt : St :=
  mkSt true 1 (fun nl j => if Nat.ltb nl 1 && Nat.ltb j 2 then 1 else 0) (fun _ => O) (fun _ _ => 0)
    (fun o => match o with O => 2 | _ => 1 end) (fun _ _ => 0) (fun _ => 0) 0 0 true.
Example exTab_layout : layout exTab.
Proof.
  intros i Hi Pi. cbn in Hi, Pi. destruct i as [|[|i]]; [| |discriminate].
  - cbn. split; [lia|]. intros; lia.
  - cbn. split; [lia|]. intros _. split; [lia|]. intros j Hj. destruct j as [|[|[|]]]; [lia| | |lia]; reflexivity.
Qed.
Example exTab_agrees : forall o, (o < nc exTab)%nat -> agrees exTab (oxide exTab o).
Proof.
  intros o Ho c Hc. cbn in Ho. cbn [npc exTab] in Hc.
  destruct o as [|[|]]; [| |lia]; destruct c as [|[|[|[|]]]]; try lia; cbn; ring.
Qed.
Example exTab_invertible : invertible exTab.
Proof. intros m o Ho. cbn in Ho. destruct o as [|[|]]; [| |lia]; cbn; ring. Qed.
Example exSt_ok : wf exTab exSt /\ balanced exTab exSt /\ newPhase exTab exSt 1.
Proof.
  split; [|split].
  - split; [|split]; [|reflexivity|cbn; lia]. split; [|split]; intros; cbn; lia.
  - intros o Ho. cbn in Ho. destruct o as [|[|]]; [| |lia]; unfold amount, inSolids, inLiquids, inLiquid, solidAmount; cbn; lra.
  - split; [cbn; lia|]. split; reflexivity.
Qed.
(** a solution phase is added, then a second instance of it, then everything
    small is dropped: a run of C45 with a redox correction in between *)
Example exRun : exists s', steps exTab (fun _ _ _ => 0) (fun _ _ => true) (fun m => m) exSt s' /\ balanced exTab s' /\
  (exists t, addSolidWithLiquid exTab (fun _ => true) 1 (fun _ => 1/2) exSt = Some t /\ nSol t 1%nat = 1%nat /\
             amount exTab (component exTab 0) t = amount exTab (component exTab 0) exSt).
Proof.
  destruct exSt_ok as (W & B & Np).
  assert (E : exists t, addSolidWithLiquid exTab (fun _ => true) 1 (fun _ => 1/2) exSt = Some t) by (eexists; reflexivity).
  destruct E as [t E]. eexists. split.
  - eapply steps_S; [eapply steps_S; [apply steps_0|eapply st_add; [exact Np|exact E]]|apply st_drop_solids].
  - split.
    + refine (proj2 (C45_runs_balanced exTab (fun _ _ _ => 0) (fun _ _ => true) (fun m => m) exTab_layout exTab_agrees exTab_invertible exSt _ W B _)).
      eapply steps_S; [eapply steps_S; [apply steps_0|eapply st_add; [exact Np|exact E]]|apply st_drop_solids].
    + exists t. split; [exact E|].
      destruct (C41_add_solid exTab _ 1 _ exSt t exTab_layout Np ltac:(cbn; lia) E) as (C & _ & N & _).
      split; [exact (N 1%nat)|]. apply C. cbn. lia.
Qed.
(** fractionation: a solid with 1 mol is fractionated down to MASSIN *)
Example exFrac : exists s, counts exTab s /\ (forall i, (nSol s i <= nSol s i)%nat) /\ MASSIN <= solC s 0%nat 0%nat /\
  residue exTab s (fracSolids exTab (fun _ => true) s) 0 0 /\ 0 < fracMass (fracSolids exTab (fun _ => true) s).
Proof.
  exists (setNSol (fun i => if Nat.eqb i 0 then 1%nat else O) (setSol 0 0 1 exSt)).
  set (s := setNSol _ _).
  assert (Cn : counts exTab s).
  { split; [|split]; intros i H; cbn in *; destruct (Nat.eqb_spec i 0); auto; subst; try discriminate; lia. }
  split; [exact Cn|]. split; [auto|].
  assert (M : MASSIN <= solC s 0%nat 0%nat) by (cbn; unfold upd2, MASSIN; cbn; lra).
  split; [exact M|].
  destruct (C43_fractionate_solids exTab (nSol s) (fun _ => true) s exTab_layout Cn (fun i => le_n _)) as (Mv & NS & LC & NL & F).
  cbv zeta in *. destruct (F 0%nat 0%nat ltac:(cbn; lia) eq_refl ltac:(cbn; lia)) as [F1 _].
  pose proof (F1 (conj eq_refl M)) as Rs. split; [exact Rs|].
  destruct Mv as (A & _ & G & _). specialize (A (grams exTab)).
  destruct Rs as [R0 _].
  set (t := fracSolids exTab (fun _ => true) s) in *.
  assert (Am : amount exTab (grams exTab) t = amount exTab (grams exTab) s + (MASSIN - 1)).
  { unfold amount, inSolids, inLiquids. rewrite NS, NL. rewrite (sum_ext (nLiq s) _ (inLiquid exTab (grams exTab) s)) by (intros; unfold inLiquid; now rewrite LC).
    unfold solidAmount. cbn [npc exTab sum isPhase Nat.ltb Nat.leb nSol s setNSol Nat.eqb na perSol grams smw]. rewrite R0.
    change (solC s 0%nat 0%nat) with 1. lra. }
  rewrite Am in A. change (fracMass s) with 0 in G. unfold MASSIN in A. lra.
Qed.
